(** * openap/prop.py: aircraft and engine lookup *)
From Coq Require Import String List Bool QArith Qround.
From Verif Require Import Str Py.
Import ListNotations.
Open Scope string_scope.

(** ** The data files, as parsed *)
(** one file openap/data/aircraft/*.yml: the entries read by the package; [None] = absent or null *)
Record acrec : Type := mkAc {
  ac_code : string;                 (* file name without .yml *)
  ac_mtow : Q; ac_mlw : Q; ac_oew : Q; ac_mfc : Q;
  ac_range : option Q;              (* cruise: range *)
  ac_height : Q; ac_mach : Q;       (* cruise: height, mach *)
  ac_area : Q; ac_span : Q; ac_sweep : Q; ac_tc : option Q;   (* wing *)
  ac_number : Q; ac_rear : bool;    (* engine: number, mount == "rear" *)
  ac_default : string;              (* engine: default *)
  ac_options : list string          (* engine: options (values of the mapping, or the list) *)
}.
(** one row of openap/data/engine/engines.csv; quadruples are (take-off, climb-out, approach, idle) *)
Record engrec : Type := mkEng {
  en_name : string;
  en_bpr : option Q; en_max_thrust : option Q;
  en_hc : Q * Q * Q * Q; en_co : Q * Q * Q * Q; en_nox : Q * Q * Q * Q; en_ff : Q * Q * Q * Q;
  en_cr_thrust : option Q; en_cr_sfc : option Q; en_cr_mach : option Q; en_cr_alt : option Q
}.
(** one file openap/data/dragpolar/*.yml *)
Record porec : Type := mkPo { po_code : string; po_cd0 : Q; po_k : Q; po_lambda : Q; po_cfc : Q; po_sfs : Q }.
(** one file openap/data/wrap/*.txt: variable, default, minimum, maximum *)
Record wrrec : Type := mkWr { wr_code : string; wr_vars : list (string * (Q * Q * Q)) }.
(** one row of openap/data/fuel/fuel_models.csv *)
Record fmrec : Type := mkFm { fm_type : string; fm_engine : string; fm_c1 : Q; fm_c2 : Q; fm_c3 : Q }.

(** everything under openap/data that the modelled code reads.  The order of the three file lists is
    the order in which the operating system lists the directory. *)
Record db : Type := mkDb {
  d_dir : string;                       (* directory prefix of the paths *)
  d_aircraft : list acrec; d_acsyn : list (string * string);
  d_polar : list porec; d_polsyn : list (string * string);
  d_wrap : list wrrec; d_wrapsyn : list (string * string);
  d_engines : list engrec;
  d_fuel : list fmrec
}.

(** [df.query("orig==@ac")], [.new.iloc[0]] (openap/prop.py:64-66; openap/drag.py:69-71; openap/kinematic.py:57-59) *)
Definition synonym (t : list (string * string)) (ac : string) : option string :=
  option_map snd (find (fun p => String.eqb (fst p) ac) t).

(** insertion sort for [sorted] on file paths (openap/prop.py:38); string order is by character code *)
Fixpoint insert_s (x : string) (l : list string) : list string :=
  match l with
  | [] => [x]
  | y :: t => if String.leb x y then x :: l else y :: insert_s x t
  end.
Definition sorted (l : list string) : list string := fold_right insert_s [] l.

(** openap/prop.py:28-45 [available_aircraft] (the cache is modelled separately, Cache.v) *)
Definition available_aircraft (d : db) (use_synonym : bool) : list string :=
  let files := sorted (map (fun r => d_dir d ++ ac_code r ++ ".yml") (d_aircraft d)) in
  let acs := map slice84 files in
  if use_synonym then (acs ++ map fst (d_acsyn d))%list else acs.

(** [glob.glob(dir_aircraft + ac + ".yml")] (openap/prop.py:61, 67).  Valid for strings without the
    characters "[" (character classes) and "/" (other directories), which are not modelled. *)
Definition glob_aircraft (d : db) (ac : string) : list acrec :=
  filter (fun r => glob_match (ac ++ ".yml") (ac_code r ++ ".yml")) (d_aircraft d).

(** openap/prop.py:48-96 [aircraft] *)
Definition aircraft (d : db) (ac : string) (use_synonym : bool) : py acrec :=
  let ac := lower ac in
  match glob_aircraft d ac with
  | f :: _ => inr f
  | [] =>
      match synonym (d_acsyn d) ac with
      | Some new_ac =>
          if use_synonym then
            match glob_aircraft d new_ac with
            | f :: _ => inr f
            | [] => inl IndexError
            end
          else inl ValueError
      | None => inl ValueError
      end
  end.

(** openap/prop.py:100-117 [aircraft_engine_options] *)
Definition aircraft_engine_options (d : db) (ac : string) : py (list string) :=
  match aircraft d ac false with
  | inl e => inl e
  | inr r => inr (ac_options r)
  end.

(** openap/prop.py:121-143 [search_engine]: no [.str.upper()] on the names *)
Definition search_engine (d : db) (eng : string) : option (list string) :=
  let ENG := upper (strip eng) in
  match filter (fun r => startswith (en_name r) ENG) (d_engines d) with
  | [] => None
  | l => Some (map en_name l)
  end.

(** [np.round(x, 8)]: nearest multiple of 1e-8, half to even (openap/prop.py:174) *)
Definition Qround_even (x : Q) : Z :=
  let f := Qfloor x in
  let r := (x - inject_Z f)%Q in
  match (r ?= 1 # 2)%Q with
  | Lt => f
  | Gt => (f + 1)%Z
  | Eq => if Z.even f then f else (f + 1)%Z
  end.
Definition np_round8 (x : Q) : Q := (inject_Z (Qround_even (x * 100000000)) / 100000000)%Q.

(** the dictionary returned by [engine]: the row, with the name replaced by the request *)
Record engres : Type := mkEr { er_name : string; er_row : engrec; er_fuel_ch : option Q }.

(** openap/prop.py:171-179: fuel flow correction factor; [None] = NaN *)
Definition fuel_ch (r : engrec) : option Q :=
  match en_cr_sfc r with
  | Some sfc_cr =>
      match en_max_thrust r, en_cr_alt r with
      | Some mt, Some alt =>
          let '(ff_to, _, _, _) := en_ff r in
          let sfc_to := (ff_to / (mt / 1000))%Q in
          Some (np_round8 ((sfc_cr - sfc_to) / (alt * 0.3048))%Q)
      | _, _ => None
      end
  | None => Some 6.7e-7%Q
  end.

(** openap/prop.py:147-183 [engine] *)
Definition engine (d : db) (eng : string) : py engres :=
  let ENG := upper (strip eng) in
  match filter (fun r => startswith (upper (en_name r)) ENG) (d_engines d) with
  | r :: _ => inr (mkEr eng r (fuel_ch r))
  | [] => inl ValueError
  end.
