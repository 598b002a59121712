(** * Model of the text files of openap/addon/bada3.py: SYNONYM.NEW and *.OPF

    Texts are ASCII with line ends translated to a newline character, as [open(..., "r")] returns them.
    [float] gives the exact value of a decimal number (no rounding, no overflow). *)
From Coq Require Import String Ascii List Bool Arith ZArith.
From Coq Require Import Reals.
From Verif Require Import Str Py Num Bada3 Regex.
Import ListNotations.
Open Scope list_scope.

(** concatenation of patterns (openap/addon/bada3.py:100-105) *)
Notation "a ;; b" := (Seq a b) (at level 61, right associativity).
(** [\s+] (openap/addon/bada3.py:101) *)
Definition sp1 : re := Rep false 1 is_space.
(** [[\d.E+-]+] (openap/addon/bada3.py:138) *)
Definition num1 : re := Rep false 1 numchar.
(** [\d+] (openap/addon/bada3.py:138) *)
Definition dig1 : re := Rep false 1 digit.
(** [\S+] (openap/addon/bada3.py:101) *)
Definition word1 : re := Rep false 1 nonspace.
(** [([\d.E+-]+)], the group of number [n] (openap/addon/bada3.py:174) *)
Definition gnum (n : nat) : re := Grp n num1.
(** [.*?] under re.DOTALL (openap/addon/bada3.py:174) *)
Definition skip : re := Rep true 0 anychar.

(** ** float *)
(** an optional sign (openap/addon/bada3.py:141, 147) *)
Definition take_sign (l : text) : bool * text :=
  match l with
  | c :: t => if Ascii.eqb c "-" then (true, t) else if Ascii.eqb c "+" then (false, t) else (false, l)
  | [] => (false, l)
  end.
(** the longest run of characters of a class, and what follows (openap/addon/bada3.py:141, 147) *)
Fixpoint span (p : cls) (l : text) : text * text :=
  match l with
  | c :: t => if p c then let (a, b) := span p t in (c :: a, b) else ([], l)
  | [] => ([], [])
  end.
(** value of a string of decimal digits (openap/addon/bada3.py:141, 147, 170) *)
Definition digits_val (l : text) : Z := fold_left (fun v c => 10 * v + (Z.of_nat (nat_of_ascii c) - 48))%Z l 0%Z.
(** a number with a sign *)
Definition signed (neg : bool) (z : Z) : Z := if neg then (- z)%Z else z.
(** [float(s)] for a string [s] of the characters in the class [[\d.E+-]] (openap/addon/bada3.py:141, 147) *)
Definition py_float (s : text) : py R :=
  let (neg, l1) := take_sign s in
  let (ip, l2) := span digit l1 in
  let (fp, l3) := match l2 with c :: t => if Ascii.eqb c "." then span digit t else ([], l2) | [] => ([], l2) end in
  let scaled (e : Z) : R := (IZR (signed neg (digits_val (ip ++ fp))) * powerRZ 10 (e - Z.of_nat (length fp)))%R in
  match ip ++ fp with
  | [] => inl ValueError
  | _ =>
      match l3 with
      | [] => inr (scaled 0%Z)
      | c :: t =>
          if Ascii.eqb c "E" then
            let (eneg, t1) := take_sign t in
            let (ed, t2) := span digit t1 in
            match ed, t2 with
            | _ :: _, [] => inr (scaled (signed eneg (digits_val ed)))
            | _, _ => inl ValueError
            end
          else inl ValueError
      end
  end.

(** ** The patterns of parse_opf_content *)
(** openap/addon/bada3.py:135-139, for a phase *)
Definition drag_re (phase : string) : re :=
  lit "CD" ;; sp1 ;; dig1 ;; sp1 ;; lit phase ;; sp1 ;; word1 ;; sp1 ;; num1 ;; sp1 ;; gnum 1 ;; sp1 ;; gnum 2.
(** openap/addon/bada3.py:153 *)
Definition actype_re : re :=
  lit "Actype" ;; Rep true 0 anychar ;; Bol true ;; lit "CD" ;; sp1 ;; Rep false 0 dot ;; Eol true.
(** openap/addon/bada3.py:168 *)
Definition engines_re : re := Grp 1 dig1 ;; sp1 ;; lit_ic "engine" ;; Opt (lit_ic "s").
(** openap/addon/bada3.py:173-177 *)
Definition mass_re : re :=
  lit "Mass (t)" ;; skip ;; lit "CD" ;; sp1 ;; gnum 1 ;; sp1 ;; gnum 2 ;; sp1 ;; gnum 3 ;; sp1 ;; gnum 4 ;; sp1 ;; num1.
(** openap/addon/bada3.py:180-184 *)
Definition envelope_re : re :=
  lit "Flight envelope" ;; skip ;; lit "CD" ;; sp1 ;; gnum 1 ;; sp1 ;; gnum 2 ;; sp1 ;; gnum 3 ;; sp1 ;; num1 ;; sp1 ;; num1.
(** openap/addon/bada3.py:187 *)
Definition area_re : re := lit "Wing Area" ;; skip ;; lit "CD " ;; dig1 ;; sp1 ;; gnum 1.
(** openap/addon/bada3.py:197 *)
Definition lgear_re : re := lit "CD " ;; dig1 ;; sp1 ;; lit "DOWN" ;; sp1 ;; gnum 1.
(** openap/addon/bada3.py:200-204 *)
Definition ct_re : re :=
  lit "Max climb thrust coefficients" ;; skip ;; lit "CD" ;; sp1 ;; gnum 1 ;; sp1 ;; gnum 2 ;; sp1 ;; gnum 3 ;; sp1 ;; gnum 4 ;; sp1 ;; gnum 5.
(** openap/addon/bada3.py:205-209 *)
Definition ctdes_re : re :=
  lit "Desc(low)" ;; skip ;; lit "CD" ;; sp1 ;; gnum 1 ;; sp1 ;; gnum 2 ;; sp1 ;; gnum 3 ;; sp1 ;; gnum 4 ;; sp1 ;; gnum 5.
(** openap/addon/bada3.py:212-216 *)
Definition cf_re : re :=
  lit "Thrust Specific Fuel Consumption Coefficients" ;; skip ;; lit "CD" ;; sp1 ;; gnum 1 ;; sp1 ;; gnum 2.
(** openap/addon/bada3.py:217-219 *)
Definition cfdes_re : re := lit "Descent Fuel Flow Coefficients" ;; skip ;; lit "CD" ;; sp1 ;; gnum 1 ;; sp1 ;; gnum 2.
(** openap/addon/bada3.py:220 *)
Definition cfcr_re : re := lit "Cruise Corr" ;; skip ;; lit "CD" ;; sp1 ;; gnum 1.
(** openap/addon/bada3.py:223-227 *)
Definition hpdes_re : re := lit "Desc level" ;; skip ;; lit "CD" ;; sp1 ;; num1 ;; sp1 ;; num1 ;; sp1 ;; gnum 1.
(** openap/addon/bada3.py:229-233 *)
Definition ground_re : re :=
  lit "Ground" ;; skip ;; lit "CD" ;; sp1 ;; gnum 1 ;; sp1 ;; gnum 2 ;; sp1 ;; gnum 3 ;; sp1 ;; gnum 4 ;; sp1 ;; num1.

(** ** parse_opf_content *)
(** evaluation of [e], then of the rest (sequencing of Python statements) *)
Local Notation "'do' x <- e ; f" := (match e with inl err => inl err | inr x => f end)
  (at level 200, x pattern, e at level 100, f at level 200, right associativity).
(** [[float(m.group(i)) for i in ...]] (openap/addon/bada3.py:147) *)
Fixpoint floats (l : list text) : py (list R) :=
  match l with
  | [] => inr []
  | t :: l' => do x <- py_float t; do xs <- floats l'; inr (x :: xs)
  end.
(** openap/addon/bada3.py:143-149 [get_floats]: None when the pattern does not occur *)
Definition get_floats (content : text) (r : re) (count : nat) : py (option (list R)) :=
  match re_search r content with
  | Some (_, g) => do xs <- floats (map (fun i => group i g) (seq 1 count)); inr (Some xs)
  | None => inr None
  end.
(** openap/addon/bada3.py:135-141 [get_drag_coeff] *)
Definition get_drag_coeff (content : text) (phase : string) : py (option (list R)) := get_floats content (drag_re phase) 2.
(** does a word occur, in any letter case? (openap/addon/bada3.py:158-164) *)
Definition has_word (w : string) (l : text) : bool := match re_search (lit_ic w) l with Some _ => true | None => false end.
(** openap/addon/bada3.py:152-170: engine type and number of engines *)
Definition actype (content : text) : option string * option R :=
  match re_search actype_re content with
  | None => (None, None)
  | Some (line, _) =>
      ((if has_word "Turboprop" line then Some "turboprop"
        else if has_word "Jet" line then Some "turbofan"
        else if has_word "Piston" line then Some "piston"
        else if has_word "Electric" line then Some "electric"
        else None)%string,
       match re_search engines_re line with
       | Some (_, g) => Some (IZR (digits_val (group 1 g)))
       | None => None
       end)
  end.
(** unpacking of the lists (openap/addon/bada3.py:187-197, 235-267) *)
Definition one (x : option (list R)) : option R := match x with Some [a] => Some a | _ => None end.
(** see [one] *)
Definition two (x : option (list R)) : option (R * R) := match x with Some [a; b] => Some (a, b) | _ => None end.
(** see [one] *)
Definition three (x : option (list R)) : option (R * R * R) := match x with Some [a; b; c] => Some (a, b, c) | _ => None end.
(** see [one] *)
Definition four (x : option (list R)) : option (R * R * R * R) := match x with Some [a; b; c; d] => Some (a, b, c, d) | _ => None end.
(** see [one] *)
Definition five (x : option (list R)) : option (R * R * R * R * R) :=
  match x with Some [a; b; c; d; e] => Some (a, b, c, d, e) | _ => None end.
(** openap/addon/bada3.py:123-233 [parse_opf_content]: what the searches found *)
Definition opf_search (content : text) : py opf :=
  let (engine, number) := actype content in
  do mass <- get_floats content mass_re 4;
  do envelope <- get_floats content envelope_re 3;
  do area <- get_floats content area_re 1;
  do cr <- get_drag_coeff content "CR";
  do ic <- get_drag_coeff content "IC";
  do to <- get_drag_coeff content "TO";
  do ap <- get_drag_coeff content "AP";
  do ld <- get_drag_coeff content "LD";
  do lgear <- get_floats content lgear_re 1;
  do ct <- get_floats content ct_re 5;
  do ctdes <- get_floats content ctdes_re 5;
  do cf <- get_floats content cf_re 2;
  do cfdes <- get_floats content cfdes_re 2;
  do cfcr <- get_floats content cfcr_re 1;
  do hpdes <- get_floats content hpdes_re 1;
  do ground <- get_floats content ground_re 4;
  inr (mkOpf engine number (four mass) (three envelope) (one area) (two cr) (two ic) (two to) (two ap) (two ld)
         (one lgear) (five ct) (five ctdes) (two cf) (two cfdes) (one cfcr) (one hpdes) (four ground)).
(** openap/addon/bada3.py:123-267 [parse_opf_content] *)
Definition parse_opf_content (content : text) : py (list (string * value)) :=
  do o <- opf_search content; inr (opf_dict o).

(** ** read_synonym and load_bada3 *)
(** openap/addon/bada3.py:100-105 *)
Definition synonym_re : re :=
  Bol false ;; lit "CD" ;; sp1 ;; One nonspace ;; sp1 ;; Grp 1 word1 ;; sp1 ;;
  Grp 2 (One nonspace ;; Opt (Rep true 0 dot ;; One nonspace)) ;; Rep false 2 is_space ;;
  Grp 3 (Rep true 1 dot) ;; Rep false 2 is_space ;;
  Grp 4 word1 ;; sp1 ;; Rep true 0 dot ;; One (Ascii.eqb "/") ;; Eol false.
(** the lines of a file, each with its newline (openap/addon/bada3.py:108 [for line in f]) *)
Fixpoint lines (l : text) : list text :=
  match l with
  | [] => []
  | c :: t =>
      if Ascii.eqb c nl then [c] :: lines t
      else match lines t with [] => [[c]] | a :: b => (c :: a) :: b end
  end.
(** what [read_synonym] returns: manufacturer, model, synonym (openap/addon/bada3.py:113-118); the entry
    [aircraft] is made of the first two, see [b3_load] *)
Record syn : Type := mkSyn { s_manufacturer : string; s_model : string; s_synonym : string }.
(** openap/addon/bada3.py:108-120: the loop over the lines *)
Fixpoint find_synonym (ls : list text) (ac : string) : py syn :=
  match ls with
  | [] => inl ValueError
  | l :: ls' =>
      match re_match synonym_re None l with
      | Some (_, g) =>
          if String.eqb (upper (st_ (group 1 g))) (upper ac) then
            inr (mkSyn (strip (st_ (group 2 g))) (strip (st_ (group 3 g))) (substring 0 4 (strip (st_ (group 4 g)))))
          else find_synonym ls' ac
      | None => find_synonym ls' ac
      end
  end.
(** the folder with the BADA files: content of the file of a given name, None when there is none
    (openap/addon/bada3.py:61, 95) *)
Definition folder : Type := string -> option text.
(** openap/addon/bada3.py:78-120 [read_synonym] with the default file name *)
Definition read_synonym (ac : string) (dir : folder) : py syn :=
  match dir "SYNONYM.NEW"%string with
  | None => inl FileNotFoundError
  | Some content => find_synonym (lines content) ac
  end.
(** openap/addon/bada3.py:42-75 [load_bada3] *)
Definition load_bada3 (ac : string) (dir : folder) : py (list (string * value)) :=
  do s <- read_synonym ac dir;
  match dir (s_synonym s ++ "__.OPF")%string with
  | None => inl FileNotFoundError
  | Some content =>
      do o <- opf_search content;
      inr (b3_load ac (s_manufacturer s) (s_model s) (s_synonym s) o)
  end.
