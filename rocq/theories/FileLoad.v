(** * What the package makes of the text of its data files

    openap/prop.py:82-183, openap/drag.py:61-90, openap/fuel.py:71-83 and openap/kinematic.py:33, 63-80 on the text of
    the files.  The records of [PropPy] hold the entries which the modelled code uses. *)
From Coq Require Import String Ascii List Bool Arith ZArith QArith.
From Verif Require Import Str Regex Bada3Text Py PropPy FileText.
Import ListNotations.
Open Scope nat_scope.
Open Scope string_scope.
Open Scope list_scope.

(** ** Dictionaries *)
(** [d[k]]: only a dictionary has entries under strings (openap/prop.py:112-115) *)
Definition getitem (d : yml) (k : string) : py yml :=
  match d with
  | Map m => match dict_get m k with Some v => inr v | None => inl KeyError end
  | _ => inl TypeError
  end.
(** [d.get(k)] as an entry of a dictionary: None becomes null (openap/prop.py:87-93) *)
Definition get_or_null (m : list (string * yml)) (k : string) : yml :=
  match dict_get m k with Some v => v | None => Sc SNull end.
(** openap/prop.py:86-94: the entry limits.  Whatever is not a dictionary has no [get]. *)
Definition add_limits (acdict : yml) : py yml :=
  match acdict with
  | Map m =>
      inr (Map (dict_set m "limits"
        (Map [("MTOW", get_or_null m "mtow"); ("MLW", get_or_null m "mlw"); ("OEW", get_or_null m "oew");
              ("MFC", get_or_null m "mfc"); ("VMO", get_or_null m "vmo"); ("MMO", get_or_null m "mmo");
              ("ceiling", get_or_null m "ceiling")])))
  | _ => inl AttributeError
  end.
(** openap/prop.py:110-117 [aircraft_engine_options] of the dictionary: without a mapping or a list the local
    variable has no value (UnboundLocalError is a NameError) *)
Definition engine_options (acdict : yml) : py (list yml) :=
  match getitem acdict "engine" with
  | inl e => inl e
  | inr e =>
      match getitem e "options" with
      | inl e => inl e
      | inr (Map m) => inr (map snd m)
      | inr (Seq l) => inr l
      | inr (Sc _) => inl NameError
      end
  end.

(** ** Records *)
(** the entry at a path of keys (openap/thrust.py:46-74, openap/drag.py:119, 181-189, 243-280) *)
Fixpoint at_path (y : yml) (ks : list string) : option yml :=
  match ks with
  | [] => Some y
  | k :: r => match getitem y k with inr y' => at_path y' r | inl _ => None end
  end.
(** a number in arithmetic (openap/thrust.py:65-74) *)
Definition as_num (y : yml) : option Q :=
  match y with Sc (SInt z) => Some (inject_Z z) | Sc (SFloat q) => Some q | _ => None end.
(** a string (openap/thrust.py:46-56) *)
Definition as_str (y : yml) : option string := match y with Sc (SStr s) => Some s | _ => None end.
Definition num_at (y : yml) (ks : list string) : option Q := match at_path y ks with Some v => as_num v | None => None end.
Definition str_at (y : yml) (ks : list string) : option string := match at_path y ks with Some v => as_str v | None => None end.
(** the entries of an aircraft file that the modelled code uses (openap/thrust.py:46-74, openap/drag.py:119, 188-189,
    261-280, openap/mass.py:31) *)
Definition acrec_of (code : string) (y : yml) : option acrec :=
  match num_at y ["limits"; "MTOW"], num_at y ["limits"; "MLW"], num_at y ["limits"; "OEW"], num_at y ["limits"; "MFC"],
        num_at y ["cruise"; "height"], num_at y ["cruise"; "mach"] with
  | Some mtow, Some mlw, Some oew, Some mfc, Some height, Some mach =>
      match num_at y ["wing"; "area"], num_at y ["wing"; "span"], num_at y ["wing"; "sweep"], num_at y ["engine"; "number"],
            str_at y ["engine"; "mount"], str_at y ["engine"; "default"], engine_options y with
      | Some area, Some sp, Some sweep, Some number, Some mount, Some default, inr opts =>
          match all_some (map as_str opts) with
          | Some os =>
              Some (mkAc code mtow mlw oew mfc (num_at y ["cruise"; "range"]) height mach area sp sweep
                      (num_at y ["wing"; "t/c"]) number (String.eqb mount "rear") default os)
          | None => None
          end
      | _, _, _, _, _, _, _ => None
      end
  | _, _, _, _, _, _ => None
  end.
(** openap/prop.py:82-94: a file openap/data/aircraft/*.yml *)
Definition load_aircraft (code : string) (file : text) : option acrec :=
  match safe_load file with
  | Some y => match add_limits y with inr d => acrec_of code d | inl _ => None end
  | None => None
  end.
(** openap/drag.py:87-90, 181-182, 243-249: a file openap/data/dragpolar/*.yml *)
Definition load_polar (code : string) (file : text) : option porec :=
  match safe_load file with
  | Some y =>
      match num_at y ["clean"; "cd0"], num_at y ["clean"; "k"], num_at y ["flaps"; "lambda_f"], num_at y ["flaps"; "cf/c"],
            num_at y ["flaps"; "Sf/S"] with
      | Some cd0, Some k, Some la, Some cfc, Some sfs => Some (mkPo code cd0 k la cfc sfs)
      | _, _, _, _, _ => None
      end
  | None => None
  end.

(** ** Tables *)
(** two columns of strings without missing cells (openap/prop.py:24, 64-66; openap/drag.py:61, 69-71;
    openap/kinematic.py:33, 57-59) *)
Definition load_synonyms (file : text) : option (list (string * string)) :=
  match read_csv file with
  | Some t =>
      match text_col t "orig", text_col t "new" with
      | Some os, Some ns =>
          match all_some os, all_some ns with Some os, Some ns => Some (combine os ns) | _, _ => None end
      | _, _ => None
      end
  | None => None
  end.
(** four columns of numbers without missing cells, row by row (openap/prop.py:132, 158) *)
Definition four_cols (t : table) (p : string) : option (list (Q * Q * Q * Q)) :=
  match num_col t (p ++ "_to"), num_col t (p ++ "_co"), num_col t (p ++ "_app"), num_col t (p ++ "_idl") with
  | Some a, Some b, Some c, Some d =>
      match all_some a, all_some b, all_some c, all_some d with
      | Some a, Some b, Some c, Some d => Some (combine (combine (combine a b) c) d)
      | _, _, _, _ => None
      end
  | _, _, _, _ => None
  end.
(** rows from columns (openap/prop.py:158, 168 [to_dict(orient="records")]) *)
Fixpoint zip_with {A B C : Type} (f : A -> B -> C) (l : list A) (m : list B) : list C :=
  match l, m with a :: l', b :: m' => f a b :: zip_with f l' m' | _, _ => [] end.
(** openap/prop.py:132, 158: openap/data/engine/engines.csv *)
Definition engines_of (t : table) : option (list engrec) :=
  match text_col t "name", num_col t "bpr", num_col t "max_thrust" with
  | Some names, Some bpr, Some mt =>
      match all_some names, four_cols t "ei_hc", four_cols t "ei_co", four_cols t "ei_nox", four_cols t "ff" with
      | Some names, Some hc, Some co, Some nox, Some ff =>
          match num_col t "cruise_thrust", num_col t "cruise_sfc", num_col t "cruise_mach", num_col t "cruise_alt" with
          | Some ct, Some cs, Some cm, Some ca =>
              Some (zip_with (fun f x => f x) (zip_with (fun f x => f x) (zip_with (fun f x => f x) (zip_with (fun f x => f x)
                   (zip_with (fun f x => f x) (zip_with (fun f x => f x) (zip_with (fun f x => f x) (zip_with (fun f x => f x)
                   (zip_with (fun f x => f x) (zip_with mkEng names bpr) mt) hc) co) nox) ff) ct) cs) cm) ca)
          | _, _, _, _ => None
          end
      | _, _, _, _, _ => None
      end
  | _, _, _ => None
  end.
Definition load_engines (file : text) : option (list engrec) :=
  match read_csv file with Some t => engines_of t | None => None end.
(** openap/fuel.py:71-83: openap/data/fuel/fuel_models.csv *)
Definition load_fuel (file : text) : option (list fmrec) :=
  match read_csv file with
  | Some t =>
      match text_col t "typecode", text_col t "engine_type", num_col t "c1", num_col t "c2", num_col t "c3" with
      | Some ty, Some en, Some c1, Some c2, Some c3 =>
          match all_some ty, all_some en, all_some c1, all_some c2, all_some c3 with
          | Some ty, Some en, Some c1, Some c2, Some c3 =>
              Some (zip_with (fun f x => f x) (zip_with (fun f x => f x) (zip_with (fun f x => f x) (zip_with mkFm ty en) c1) c2) c3)
          | _, _, _, _, _ => None
          end
      | _, _, _, _, _ => None
      end
  | None => None
  end.

(** ** The kinematic model *)
(** what [_get_var] returns (openap/kinematic.py:73-79) *)
Record kvar : Type := mkKvar { k_default : Q; k_min : Q; k_max : Q; k_model : string; k_params : list Q }.
(** the cells of the column at a position (openap/kinematic.py:71-79) *)
Definition col_at (t : table) (i : nat) : list text := map (fun r => nth i r []) (t_rows t).
(** are all cells numerals or missing?  Then pandas makes it a column of numbers, otherwise of strings
    (openap/kinematic.py:63) *)
Definition numeric_at (t : table) (i : nat) : bool :=
  match all_some (map num_cell (col_at t i)) with Some _ => true | None => false end.
(** are all cells words for truth values?  Then pandas makes it a column of these (openap/kinematic.py:63) *)
Definition truth_at (t : table) (i : nat) : bool := forallb (one_of ["True"; "TRUE"; "true"; "False"; "FALSE"; "false"]%string) (col_at t i).
(** a column of strings (openap/kinematic.py:63) *)
Definition strings_at (t : table) (i : nat) : bool := negb (numeric_at t i) && negb (truth_at t i).
(** the columns 3 to 5 hold numbers, the column 6 strings (openap/kinematic.py:74-77) *)
Definition wrap_types (t : table) : bool := numeric_at t 3 && numeric_at t 4 && numeric_at t 5 && strings_at t 6.
(** the texts that [float] reads in another way than [numeral]: words for infinity and NaN, underscores
    (openap/kinematic.py:78) *)
Definition odd_float (l : text) : bool :=
  existsb (String.eqb (lower (st_ (snd (take_sign (ltrim (rtrim l))))))) ["nan"; "inf"; "infinity"] || existsb (Ascii.eqb "_") l.
(** openap/kinematic.py:78 [[float(i) for i in v[7].split("|")]]: numbers and NaN have no [split].  The outer [None]: not
    modelled. *)
Definition row_params (t : table) (r : list text) : option (py (list Q)) :=
  if negb (strings_at t 7) || missing (nth 7 r []) then Some (inl AttributeError)
  else if existsb odd_float (split_on "|" (nth 7 r [])) then None
  else match all_some (map numeral (split_on "|" (nth 7 r []))) with
       | Some ps => Some (inr ps)
       | None => Some (inl ValueError)
       end.
(** openap/kinematic.py:71-80: the cells of a row by position.  The outer [None]: cells of other types than in the files of
    the package, not modelled. *)
Definition row_var (t : table) (r : list text) : option (py kvar) :=
  match row_params t r with
  | None => None
  | Some (inl e) => Some (inl e)
  | Some (inr ps) =>
      if wrap_types t && negb (missing (nth 6 r [])) then
        match num_cell (nth 3 r []), num_cell (nth 4 r []), num_cell (nth 5 r []) with
        | Some (Some o), Some (Some lo), Some (Some hi) => Some (inr (mkKvar o lo hi (st_ (nth 6 r [])) ps))
        | _, _, _ => None
        end
      else None
  end.
(** openap/kinematic.py:65-80 [_get_var]: the first row whose cell in the column variable is [var]; the other cells are
    taken by position.  The outer [None]: names that are numbers, not modelled. *)
Definition get_var_text (t : table) (var : string) : option (py kvar) :=
  match position (tx "variable") (t_cols t) with
  | None => Some (inl KeyError)
  | Some iv =>
      if strings_at t iv then
        match find (fun r => String.eqb (st_ (nth iv r [])) var && negb (missing (nth iv r []))) (t_rows t) with
        | None => Some (inl ValueError)
        | Some r => if Nat.ltb (length (t_cols t)) 8 then Some (inl IndexError) else row_var t r
        end
      else None
  end.
(** a file openap/data/wrap/*.txt with its first column called variable and no cell of it missing, as [PropPy] holds it
    (openap/kinematic.py:63) *)
Definition load_wrap (code : string) (file : text) : option wrrec :=
  match read_fwf file with
  | Some t =>
      match position (tx "variable") (t_cols t) with
      | Some O =>
          if strings_at t 0 && negb (existsb missing (col_at t 0)) && Nat.leb 8 (length (t_cols t)) then
            match all_some (map (fun r => match row_var t r with
                                          | Some (inr v) => Some (st_ (nth 0 r []), (k_default v, k_min v, k_max v))
                                          | _ => None
                                          end) (t_rows t)) with
            | Some vs => Some (mkWr code vs)
            | None => None
            end
          else None
      | _ => None
      end
  | None => None
  end.
