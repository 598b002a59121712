(** * The functions of openap.aero and openap.geo: calls handed on to methods

    Binding of arguments as in Wire.v, for values of any type; the bodies of the methods are parameters. *)
From Coq Require Import String List Bool Arith ZArith.
From Verif Require Import Py Num Aero Geo.
Import ListNotations.
Open Scope string_scope.

(** parameters with their defaults, [None]: required; all defaults are integers (openap/aero.py:92, 335) *)
Definition params : Type := list (string * option Z).
(** methods of [Aero] and [Geo], parameters without [self] (openap/aero.py:92-325, openap/geo.py:58-248) *)
Record method : Type := mkM { m_class : string; m_name : string; m_params : params }.
(** functions: module, name, parameters, class of the object they call, method, arguments handed on by position (openap/aero.py:335-414) *)
Record func : Type := mkF { f_module : string; f_name : string; f_params : params; f_class : string; f_method : string; f_args : list string }.
(** generated from the source text (openap/aero.py:92-307, openap/geo.py:58-149) *)
Definition methods : list method :=
  [mkM "Aero" "atmos" [("h", None); ("dT", Some 0%Z)] (* openap/aero.py:92 *);
   mkM "Aero" "temperature" [("h", None); ("dT", Some 0%Z)] (* openap/aero.py:113 *);
   mkM "Aero" "pressure" [("h", None); ("dT", Some 0%Z)] (* openap/aero.py:126 *);
   mkM "Aero" "density" [("h", None); ("dT", Some 0%Z)] (* openap/aero.py:139 *);
   mkM "Aero" "vsound" [("h", None); ("dT", Some 0%Z)] (* openap/aero.py:152 *);
   mkM "Aero" "h_isa" [("p", None); ("dT", Some 0%Z)] (* openap/aero.py:165 *);
   mkM "Aero" "tas2mach" [("v_tas", None); ("h", None); ("dT", Some 0%Z)] (* openap/aero.py:189 *);
   mkM "Aero" "mach2tas" [("mach", None); ("h", None); ("dT", Some 0%Z)] (* openap/aero.py:203 *);
   mkM "Aero" "eas2tas" [("v_eas", None); ("h", None); ("dT", Some 0%Z)] (* openap/aero.py:217 *);
   mkM "Aero" "tas2eas" [("v_tas", None); ("h", None); ("dT", Some 0%Z)] (* openap/aero.py:231 *);
   mkM "Aero" "cas2tas" [("v_cas", None); ("h", None); ("dT", Some 0%Z)] (* openap/aero.py:245 *);
   mkM "Aero" "tas2cas" [("v_tas", None); ("h", None); ("dT", Some 0%Z)] (* openap/aero.py:262 *);
   mkM "Aero" "mach2cas" [("mach", None); ("h", None); ("dT", Some 0%Z)] (* openap/aero.py:279 *);
   mkM "Aero" "cas2mach" [("v_cas", None); ("h", None); ("dT", Some 0%Z)] (* openap/aero.py:293 *);
   mkM "Aero" "crossover_alt" [("v_cas", None); ("mach", None); ("dT", Some 0%Z)] (* openap/aero.py:307 *);
   mkM "Geo" "distance" [("lat1", None); ("lon1", None); ("lat2", None); ("lon2", None); ("h", Some 0%Z)] (* openap/geo.py:58 *);
   mkM "Geo" "bearing" [("lat1", None); ("lon1", None); ("lat2", None); ("lon2", None)] (* openap/geo.py:87 *);
   mkM "Geo" "latlon" [("lat1", None); ("lon1", None); ("d", None); ("brg", None); ("h", Some 0%Z)] (* openap/geo.py:115 *);
   mkM "Geo" "solar_zenith_angle" [("lat", None); ("lon", None); ("timestamp", None)] (* openap/geo.py:149 *)].
(** generated from the source text (openap/aero.py:335-414, openap/geo.py:258-320) *)
Definition functions : list func :=
  [mkF "aero" "atmos" [("h", None); ("dT", Some 0%Z)] "Aero" "atmos" ["h"; "dT"] (* openap/aero.py:335-337 *);
   mkF "aero" "temperature" [("h", None); ("dT", Some 0%Z)] "Aero" "temperature" ["h"; "dT"] (* openap/aero.py:340-342 *);
   mkF "aero" "pressure" [("h", None); ("dT", Some 0%Z)] "Aero" "pressure" ["h"; "dT"] (* openap/aero.py:345-347 *);
   mkF "aero" "density" [("h", None); ("dT", Some 0%Z)] "Aero" "density" ["h"; "dT"] (* openap/aero.py:350-352 *);
   mkF "aero" "vsound" [("h", None); ("dT", Some 0%Z)] "Aero" "vsound" ["h"; "dT"] (* openap/aero.py:355-357 *);
   mkF "aero" "h_isa" [("p", None); ("dT", Some 0%Z)] "Aero" "h_isa" ["p"; "dT"] (* openap/aero.py:360-362 *);
   mkF "aero" "tas2mach" [("v_tas", None); ("h", None); ("dT", Some 0%Z)] "Aero" "tas2mach" ["v_tas"; "h"; "dT"] (* openap/aero.py:372-374 *);
   mkF "aero" "mach2tas" [("mach", None); ("h", None); ("dT", Some 0%Z)] "Aero" "mach2tas" ["mach"; "h"; "dT"] (* openap/aero.py:377-379 *);
   mkF "aero" "eas2tas" [("v_eas", None); ("h", None); ("dT", Some 0%Z)] "Aero" "eas2tas" ["v_eas"; "h"; "dT"] (* openap/aero.py:382-384 *);
   mkF "aero" "tas2eas" [("v_tas", None); ("h", None); ("dT", Some 0%Z)] "Aero" "tas2eas" ["v_tas"; "h"; "dT"] (* openap/aero.py:387-389 *);
   mkF "aero" "cas2tas" [("v_cas", None); ("h", None); ("dT", Some 0%Z)] "Aero" "cas2tas" ["v_cas"; "h"; "dT"] (* openap/aero.py:392-394 *);
   mkF "aero" "tas2cas" [("v_tas", None); ("h", None); ("dT", Some 0%Z)] "Aero" "tas2cas" ["v_tas"; "h"; "dT"] (* openap/aero.py:397-399 *);
   mkF "aero" "mach2cas" [("mach", None); ("h", None); ("dT", Some 0%Z)] "Aero" "mach2cas" ["mach"; "h"; "dT"] (* openap/aero.py:402-404 *);
   mkF "aero" "cas2mach" [("v_cas", None); ("h", None); ("dT", Some 0%Z)] "Aero" "cas2mach" ["v_cas"; "h"; "dT"] (* openap/aero.py:407-409 *);
   mkF "aero" "crossover_alt" [("v_cas", None); ("mach", None); ("dT", Some 0%Z)] "Aero" "crossover_alt" ["v_cas"; "mach"; "dT"] (* openap/aero.py:412-414 *);
   mkF "geo" "distance" [("lat1", None); ("lon1", None); ("lat2", None); ("lon2", None); ("h", Some 0%Z)] "Geo" "distance" ["lat1"; "lon1"; "lat2"; "lon2"; "h"] (* openap/geo.py:258-271 *);
   mkF "geo" "bearing" [("lat1", None); ("lon1", None); ("lat2", None); ("lon2", None)] "Geo" "bearing" ["lat1"; "lon1"; "lat2"; "lon2"] (* openap/geo.py:274-286 *);
   mkF "geo" "latlon" [("lat1", None); ("lon1", None); ("d", None); ("brg", None); ("h", Some 0%Z)] "Geo" "latlon" ["lat1"; "lon1"; "d"; "brg"; "h"] (* openap/geo.py:289-302 *);
   mkF "geo" "solar_zenith_angle" [("lat", None); ("lon", None); ("timestamp", None)] "Geo" "solar_zenith_angle" ["lat"; "lon"; "timestamp"] (* openap/geo.py:305-320 *)].

Section Call.
(** values, and the value of an integer literal *)
Variable A : Type.
Variable lit : Z -> A.
(** keyword arguments of a call (openap/aero.py:335) *)
Definition kws : Type := list (string * A).
(** value of a keyword (openap/aero.py:335) *)
Fixpoint kw (n : string) (k : kws) : option A := match k with [] => None | (m, v) :: t => if String.eqb m n then Some v else kw n t end.
(** a name in a list of names *)
Definition has (n : string) (l : list string) : bool := existsb (String.eqb n) l.
(** no name twice *)
Fixpoint no_dup (l : list string) : bool := match l with [] => true | x :: t => negb (has x t) && no_dup t end.
(** parameters not given by position (openap/aero.py:335) *)
Fixpoint rest (s : params) (k : kws) : py (list A) :=
  match s with
  | [] => inr []
  | (n, d) :: t =>
      match kw n k, d with
      | None, None => inl TypeError
      | Some v, _ => match rest t k with inl e => inl e | inr r => inr (v :: r) end
      | None, Some z => match rest t k with inl e => inl e | inr r => inr (lit z :: r) end
      end
  end.
(** binding of the arguments of a call (Python language reference, section "Calls"; openap/aero.py:337) *)
Definition bind (s : params) (pos : list A) (k : kws) : py (list A) :=
  if negb (no_dup (map fst k)) then inl TypeError
  else if Nat.ltb (List.length s) (List.length pos) then inl TypeError
  else if existsb (fun n => has n (map fst k)) (firstn (List.length pos) (map fst s)) then inl TypeError
  else if existsb (fun n => negb (has n (map fst s))) (map fst k) then inl TypeError
  else match rest (skipn (List.length pos) s) k with inl e => inl e | inr r => inr (pos ++ r)%list end.
(** the object, and what the methods compute from their arguments *)
Variable self : A.
Variable body : string -> string -> list A -> py (list A).
(** a method of a class by its name *)
Definition find_method (c m : string) : option method := find (fun x => String.eqb (m_class x) c && String.eqb (m_name x) m) methods.
(** a call of a method with any arguments (openap/aero.py:337) *)
Definition call_method (c m : string) (pos : list A) (k : kws) : py (list A) :=
  match find_method c m with
  | None => inl AttributeError
  | Some x => match bind (("self", None) :: m_params x) (self :: pos) k with inl e => inl e | inr l => body c m (tl l) end
  end.
(** a function of a module by its name *)
Definition find_function (mo f : string) : option func := find (fun x => String.eqb (f_module x) mo && String.eqb (f_name x) f) functions.
(** local variables of the function (openap/aero.py:337) *)
Definition locals (s : params) (l : list A) : kws := combine (map fst s) l.
(** the arguments handed on *)
Fixpoint hand_on (l : kws) (ns : list string) : py (list A) :=
  match ns with
  | [] => inr []
  | n :: t => match kw n l with None => inl NameError | Some v => match hand_on l t with inl e => inl e | inr r => inr (v :: r) end end
  end.
(** a call of a function with any arguments (openap/aero.py:335-414, openap/geo.py:258-320) *)
Definition call_function (mo f : string) (pos : list A) (k : kws) : py (list A) :=
  match find_function mo f with
  | None => inl AttributeError
  | Some x =>
      match bind (f_params x) pos k with
      | inl e => inl e
      | inr l => match hand_on (locals (f_params x) l) (f_args x) with inl e => inl e | inr args => call_method (f_class x) (f_method x) args [] end
      end
  end.
End Call.

(** the methods of Aero.v and Geo.v by their names; [solar_zenith_angle] takes a timestamp and is modelled in Timestamp.v
    (openap/aero.py:92-325, openap/geo.py:58-147) *)
Definition numeric_body (b : backend) (c m : string) (l : list (T b)) : py (list (T b)) :=
  match c, m, l with
  | "Aero", "atmos", [h; dT] => let '(p, rho, t) := atmos b h dT in inr [p; rho; t]
  | "Aero", "temperature", [h; dT] => inr [temperature b h dT]
  | "Aero", "pressure", [h; dT] => inr [pressure b h dT]
  | "Aero", "density", [h; dT] => inr [density b h dT]
  | "Aero", "vsound", [h; dT] => inr [vsound b h dT]
  | "Aero", "h_isa", [p; dT] => inr [h_isa b p dT]
  | "Aero", "tas2mach", [v; h; dT] => inr [tas2mach b v h dT]
  | "Aero", "mach2tas", [v; h; dT] => inr [mach2tas b v h dT]
  | "Aero", "eas2tas", [v; h; dT] => inr [eas2tas b v h dT]
  | "Aero", "tas2eas", [v; h; dT] => inr [tas2eas b v h dT]
  | "Aero", "cas2tas", [v; h; dT] => inr [cas2tas b v h dT]
  | "Aero", "tas2cas", [v; h; dT] => inr [tas2cas b v h dT]
  | "Aero", "mach2cas", [v; h; dT] => inr [mach2cas b v h dT]
  | "Aero", "cas2mach", [v; h; dT] => inr [cas2mach b v h dT]
  | "Aero", "crossover_alt", [v; m; dT] => inr [crossover_alt b v m dT]
  | "Geo", "distance", [lat1; lon1; lat2; lon2; h] => inr [distance b lat1 lon1 lat2 lon2 h]
  | "Geo", "bearing", [lat1; lon1; lat2; lon2] => inr [bearing b lat1 lon1 lat2 lon2]
  | "Geo", "latlon", [lat1; lon1; d; brg; h] => let '(lat, lon) := latlon b lat1 lon1 d brg h in inr [lat; lon]
  | _, _, _ => inl TypeError
  end.
