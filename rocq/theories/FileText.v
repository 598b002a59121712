(** * The text of the data files: YAML, comma separated and fixed width tables

    [yaml.safe_load], [pandas.read_csv] and [pandas.read_fwf] on the part of their input languages that the files
    under openap/data use.  The functions answer [None] on every text outside that part, so that an answer [Some]
    never rests on a rule left out here.  Numbers are exact decimals (the program rounds them to double precision;
    see the claims on rounding error). *)
From Coq Require Import String Ascii List Bool Arith ZArith QArith.
From Verif Require Import Regex Bada3Text Py.
Import ListNotations.
Open Scope char_scope.
Open Scope nat_scope.
Open Scope list_scope.

(** ** Characters and lines *)
(** the blank (openap/prop.py:83, openap/kinematic.py:63) *)
Definition blank (c : ascii) : bool := Ascii.eqb c " ".
(** the text cut at every occurrence of a character (lines of a file: openap/prop.py:83, 132; openap/kinematic.py:63;
    [split("|")]: openap/kinematic.py:78) *)
Fixpoint split_on (c : ascii) (l : text) : list text :=
  match l with
  | [] => [[]]
  | a :: r => if Ascii.eqb a c then [] :: split_on c r
              else match split_on c r with h :: t => (a :: h) :: t | [] => [[a]] end
  end.
(** leading blanks dropped (openap/prop.py:83) *)
Fixpoint ltrim (l : text) : text := match l with c :: r => if blank c then ltrim r else l | [] => [] end.
(** trailing blanks dropped (openap/prop.py:83) *)
Fixpoint rtrim (l : text) : text :=
  match l with
  | [] => []
  | c :: r => match rtrim r with [] => if blank c then [] else [c] | r' => c :: r' end
  end.

(** ** Numbers *)
(** ten to the power n (openap/prop.py:83) *)
Fixpoint p10 (n : nat) : positive := match n with O => 1 | S k => 10 * p10 k end%positive.
(** value of the digits [ip] . [fp] with a sign (openap/prop.py:83, 132; openap/kinematic.py:63, 78) *)
Definition decimal (neg : bool) (ip fp : text) : Q := Qmake (signed neg (digits_val (ip ++ fp))) (p10 (length fp)).
(** a number times ten to the power e (openap/prop.py:83, 132) *)
Definition scale10 (q : Q) (e : Z) : Q :=
  match e with
  | Zneg p => (q * (1 # p10 (Pos.to_nat p)))%Q
  | _ => (q * (Zpos (p10 (Z.to_nat e)) # 1))%Q
  end.
(** a numeral as [float] and pandas read it: sign, digits, point, digits, exponent; one digit at least
    (openap/prop.py:132, 158; openap/fuel.py:71; openap/kinematic.py:63, 78) *)
Definition numeral (l : text) : option Q :=
  let (neg, l1) := take_sign (ltrim (rtrim l)) in
  let (ip, l2) := span digit l1 in
  let (fp, l3) := match l2 with c :: t => if Ascii.eqb c "." then span digit t else ([], l2) | [] => ([], l2) end in
  match ip ++ fp with
  | [] => None
  | _ =>
      match l3 with
      | [] => Some (decimal neg ip fp)
      | c :: t =>
          if Ascii.eqb c "e" || Ascii.eqb c "E" then
            let (eneg, t1) := take_sign t in
            let (ed, t2) := span digit t1 in
            match ed, t2 with
            | _ :: _, [] => Some (scale10 (decimal neg ip fp) (signed eneg (digits_val ed)))
            | _, _ => None
            end
          else None
      end
  end.

(** ** YAML *)
(** what [safe_load] makes of one scalar (openap/prop.py:83, openap/drag.py:89) *)
Inductive scal : Type := SNull | SBool (b : bool) | SInt (z : Z) | SFloat (q : Q) | SStr (s : string).
(** what [safe_load] makes of a file (openap/prop.py:83, openap/drag.py:89); the keys of a mapping are strings, in the
    order in which they were first set *)
Inductive yml : Type := Sc (v : scal) | Seq (l : list yml) | Map (m : list (string * yml)).

(** the words read as null and as truth values (PyYAML's resolver; openap/prop.py:83) *)
Definition null_words : list string := ["~"; "null"; "Null"; "NULL"]%string.
Definition true_words : list string := ["yes"; "Yes"; "YES"; "true"; "True"; "TRUE"; "on"; "On"; "ON"]%string.
Definition false_words : list string := ["no"; "No"; "NO"; "false"; "False"; "FALSE"; "off"; "Off"; "OFF"]%string.
(** is the text one of the words (openap/prop.py:83)? *)
Definition one_of (ws : list string) (l : text) : bool := existsb (String.eqb (st_ l)) ws.

(** [0-7] and its value (openap/prop.py:83) *)
Definition octal (c : ascii) : bool := let n := nat_of_ascii c in (48 <=? n) && (n <=? 55).
Definition octal_val (l : text) : Z := fold_left (fun v c => 8 * v + (Z.of_nat (nat_of_ascii c) - 48))%Z l 0%Z.

(** the optional exponent of a YAML float, which must have a sign: [None] when the rest is something else
    (openap/prop.py:83) *)
Definition yaml_exponent (l : text) : option Z :=
  match l with
  | [] => Some 0%Z
  | c :: s :: t =>
      if (Ascii.eqb c "e" || Ascii.eqb c "E") && (Ascii.eqb s "+" || Ascii.eqb s "-") then
        let (ed, t2) := span digit t in
        match ed, t2 with
        | _ :: _, [] => Some (signed (Ascii.eqb s "-") (digits_val ed))
        | _, _ => None
        end
      else None
  | _ => None
  end.
(** a YAML 1.1 integer: no leading zero, or octal (openap/prop.py:83) *)
Definition yaml_int (l : text) : option Z :=
  let (neg, l1) := take_sign l in
  match l1 with
  | [] => None
  | c :: r =>
      if Ascii.eqb c "0" then
        match r with
        | [] => Some 0%Z
        | _ => if forallb octal r then Some (signed neg (octal_val r)) else None
        end
      else if forallb digit l1 then Some (signed neg (digits_val l1)) else None
  end.
(** a YAML 1.1 float: a point is needed, and a digit before it or, without sign, after it (openap/prop.py:83) *)
Definition yaml_float (l : text) : option Q :=
  let (neg, l1) := take_sign l in
  let (ip, l2) := span digit l1 in
  match l2 with
  | c :: r =>
      if Ascii.eqb c "." then
        let (fp, l3) := span digit r in
        match ip, fp with
        | [], [] => None
        | _, _ => option_map (scale10 (decimal neg ip fp)) (yaml_exponent l3)
        end
      else None
  | [] => None
  end.
(** texts which PyYAML reads by a rule that is not modelled: numbers with underscores or colons, in base 2 and 16,
    infinities, a sign before a point, dates, merge keys (openap/prop.py:83) *)
Definition special (l : text) : bool :=
  let (_, l1) := take_sign l in
  match l1 with
  | c :: r =>
      (digit c && (existsb (fun a => Ascii.eqb a "_" || Ascii.eqb a ":") r || existsb (fun a => Ascii.eqb a "x" || Ascii.eqb a "b") (firstn 1 r)))
      || (Ascii.eqb c "." && negb (existsb digit (firstn 1 r) && (length l =? length l1)))
      || (forallb digit (firstn 4 l) && (4 <? length l) && existsb (fun a => Ascii.eqb a "-") (firstn 1 (skipn 4 l)))
      || Ascii.eqb c "<" || Ascii.eqb c "="
  | [] => false
  end.
(** the value of a plain scalar (openap/prop.py:83) *)
Definition resolve (l : text) : option scal :=
  if one_of null_words l then Some SNull
  else if one_of true_words l then Some (SBool true)
  else if one_of false_words l then Some (SBool false)
  else if special l then None
  else match yaml_int l with
       | Some z => Some (SInt z)
       | None => match yaml_float l with Some q => Some (SFloat q) | None => Some (SStr (st_ l)) end
       end.

(** a [#] after a blank or at the start begins a comment (openap/prop.py:83) *)
Fixpoint uncomment (start : bool) (l : text) : text :=
  match l with
  | [] => []
  | c :: r => if start && Ascii.eqb c "#" then [] else c :: uncomment (blank c) r
  end.
(** cut at the first colon that ends the line or stands before a blank (openap/prop.py:83) *)
Fixpoint key_split (l : text) : option (text * text) :=
  match l with
  | [] => None
  | c :: r =>
      if Ascii.eqb c ":" && match r with [] => true | d :: _ => blank d end then Some ([], r)
      else option_map (fun p => (c :: fst p, snd p)) (key_split r)
  end.
(** can a plain scalar begin like this (openap/prop.py:83)? *)
Definition plain_start (l : text) : bool :=
  match l with
  | [] => false
  | c :: r =>
      negb (existsb (Ascii.eqb c) [","; "["; "]"; "{"; "}"; "#"; "&"; "*"; "!"; "|"; ">"; "'"; """"; "%"; "@"; "`"])
      && (if existsb (Ascii.eqb c) ["-"; "?"; ":"] then match r with [] => false | d :: _ => negb (blank d) end else true)
      && negb (String.prefix "---" (st_ l)) && negb (String.prefix "..." (st_ l))
  end.
(** the scalar a text stands for (openap/prop.py:83) *)
Definition scalar (l : text) : option scal :=
  if plain_start l then match key_split l with None => resolve l | Some _ => None end else None.

(** one line of a file: an item of a sequence, or a key with or without a scalar (openap/prop.py:83) *)
Inductive entry : Type := EItem (v : scal) | EKey (k : string) (v : option scal).
(** a key, a colon, perhaps a scalar (openap/prop.py:83) *)
Definition key_entry (l : text) : option entry :=
  match key_split l with
  | Some (k, v) =>
      match scalar (rtrim k) with
      | Some (SStr s) => match ltrim v with
                         | [] => Some (EKey s None)
                         | v' => option_map (fun x => EKey s (Some x)) (scalar v')
                         end
      | _ => None
      end
  | None => None
  end.
(** a line without indentation and comment (openap/prop.py:83) *)
Definition line_entry (l : text) : option entry :=
  match l with
  | a :: b :: r => if Ascii.eqb a "-" && blank b then option_map EItem (scalar (ltrim r)) else key_entry l
  | _ => key_entry l
  end.
(** the lines that are not blank, with their indentation (openap/prop.py:83) *)
Fixpoint entries (ls : list text) : option (list (nat * entry)) :=
  match ls with
  | [] => Some []
  | l :: r =>
      match rtrim (uncomment true l) with
      | [] => entries r
      | l' => match line_entry (ltrim l'), entries r with
              | Some e, Some es => Some ((length l' - length (ltrim l'), e) :: es)
              | _, _ => None
              end
      end
  end.

(** [d[k] = v] on a dictionary: a new key goes to the end (openap/prop.py:83, 86) *)
Fixpoint dict_set {A : Type} (d : list (string * A)) (k : string) (v : A) : list (string * A) :=
  match d with
  | [] => [(k, v)]
  | (k', v') :: r => if String.eqb k k' then (k', v) :: r else (k', v') :: dict_set r k v
  end.
(** [d.get(k)], with [None] for a missing key (openap/prop.py:87-93) *)
Definition dict_get {A : Type} (d : list (string * A)) (k : string) : option A :=
  option_map snd (find (fun p => String.eqb (fst p) k) d).
(** the dictionary of the pairs of a mapping, in file order (openap/prop.py:83) *)
Definition dict_of {A : Type} (l : list (string * A)) : list (string * A) :=
  fold_left (fun d p => dict_set d (fst p) (snd p)) l [].

(** the items of a sequence at indentation n, and the other lines (openap/prop.py:83) *)
Fixpoint items (n : nat) (ls : list (nat * entry)) : list yml * list (nat * entry) :=
  match ls with
  | (i, EItem v) :: r => if i =? n then let (vs, r') := items n r in (Sc v :: vs, r') else ([], ls)
  | _ => ([], ls)
  end.
(** the pairs of a mapping at indentation n, and the other lines.  A key without scalar owns the deeper lines that
    follow it, or the items at its own indentation, or is null (openap/prop.py:83). *)
Fixpoint pairs (fuel : nat) (n : nat) (ls : list (nat * entry)) : option (list (string * yml) * list (nat * entry)) :=
  match fuel with
  | O => None
  | S f =>
      match ls with
      | [] => Some ([], [])
      | (i, e) :: r =>
          if i <? n then Some ([], ls)
          else if n <? i then None
          else
            let next (k : string) (v : yml) (r' : list (nat * entry)) :=
              option_map (fun p => ((k, v) :: fst p, snd p)) (pairs f n r') in
            match e with
            | EItem _ => None
            | EKey k (Some s) => next k (Sc s) r
            | EKey k None =>
                match r with
                | (j, EItem _) :: _ => if n <=? j then let (vs, r') := items j r in next k (Seq vs) r' else next k (Sc SNull) r
                | (j, EKey _ _) :: _ =>
                    if n <? j then match pairs f j r with Some (m, r') => next k (Map (dict_of m)) r' | None => None end
                    else next k (Sc SNull) r
                | [] => next k (Sc SNull) []
                end
            end
      end
  end.
(** the characters of the files (openap/prop.py:82-83): printable ASCII and ends of lines *)
Definition file_char (c : ascii) : bool := let n := nat_of_ascii c in ((32 <=? n) && (n <=? 126)) || (n =? 10).
(** [yaml.safe_load(text)] (openap/prop.py:83, openap/drag.py:89) *)
Definition safe_load (l : text) : option yml :=
  if forallb file_char l then
    match entries (split_on nl l) with
    | None => None
    | Some [] => Some (Sc SNull)
    | Some (((n, EItem _) :: _) as es) => match items n es with (vs, []) => Some (Seq vs) | _ => None end
    | Some (((n, EKey _ _) :: _) as es) => match pairs (S (length es)) n es with Some (m, []) => Some (Map (dict_of m)) | _ => None end
    end
  else None.

(** ** Comma separated tables *)
(** where the reader stands in a line: at the start of a cell, inside a bare cell, inside quotes, after a quote inside
    quotes (openap/prop.py:132; pandas' tokenizer) *)
Inductive csv_state : Type := CStart | CBare | CQuoted | CQuote.
(** the cells of one line; [acc] is the cell read so far, backwards.  A line that ends inside quotes would go on in the
    next one, which is not modelled (openap/prop.py:24, 132, 158; openap/fuel.py:71; openap/drag.py:61;
    openap/kinematic.py:33). *)
Fixpoint csv_cells (st : csv_state) (acc : text) (l : text) : option (list text) :=
  match l with
  | [] => match st with CQuoted => None | _ => Some [rev acc] end
  | c :: r =>
      match st with
      | CStart | CBare =>
          if Ascii.eqb c "," then option_map (cons (rev acc)) (csv_cells CStart [] r)
          else if Ascii.eqb c """" && match st with CStart => true | _ => false end then csv_cells CQuoted acc r
          else csv_cells CBare (c :: acc) r
      | CQuoted => if Ascii.eqb c """" then csv_cells CQuote acc r else csv_cells CQuoted (c :: acc) r
      | CQuote =>
          if Ascii.eqb c "," then option_map (cons (rev acc)) (csv_cells CStart [] r)
          else if Ascii.eqb c """" then csv_cells CQuoted (c :: acc) r
          else csv_cells CBare (c :: acc) r
      end
  end.
(** the rows of the lines that are not blank (openap/prop.py:132) *)
Fixpoint csv_rows (ls : list text) : option (list (list text)) :=
  match ls with
  | [] => Some []
  | l :: r =>
      match ltrim l with
      | [] => csv_rows r
      | _ => match csv_cells CStart [] l, csv_rows r with
             | Some c, Some rs => Some (c :: rs)
             | _, _ => None
             end
      end
  end.
(** a table: the names of the columns and the rows (openap/prop.py:132) *)
Record table : Type := mkTable { t_cols : list text; t_rows : list (list text) }.
(** the first row names the columns; every row has a cell for each (openap/prop.py:132) *)
Definition table_of (rows : list (list text)) : option table :=
  match rows with
  | h :: rs => if forallb (fun r => length r =? length h) rs then Some (mkTable h rs) else None
  | [] => None
  end.
(** [pd.read_csv(file)] (openap/prop.py:24, 132, 158; openap/fuel.py:71; openap/drag.py:61; openap/kinematic.py:33) *)
Definition read_csv (l : text) : option table :=
  match csv_rows (split_on nl l) with Some rows => table_of rows | None => None end.

(** the position of a column (openap/prop.py:162) *)
Fixpoint position (name : text) (cols : list text) : option nat :=
  match cols with
  | [] => None
  | c :: r => if String.eqb (st_ c) (st_ name) then Some 0 else option_map S (position name r)
  end.
(** the cells of a column (openap/prop.py:162) *)
Definition column (t : table) (name : string) : option (list text) :=
  match position (tx name) (t_cols t) with
  | Some i => Some (map (fun r => nth i r []) (t_rows t))
  | None => None
  end.
(** a cell that pandas reads as NaN (openap/prop.py:132) *)
Definition missing (l : text) : bool :=
  one_of [""; "#N/A"; "#N/A N/A"; "#NA"; "-1.#IND"; "-1.#QNAN"; "-NaN"; "-nan"; "1.#IND"; "1.#QNAN"; "<NA>"; "N/A";
          "NA"; "NULL"; "NaN"; "None"; "n/a"; "nan"; "null"]%string l.
(** one cell of a column of numbers: the outer [None] is a cell that is not a number (openap/prop.py:132) *)
Definition num_cell (l : text) : option (option Q) := if missing l then Some None else option_map Some (numeral l).
(** all results, or none (openap/prop.py:132) *)
Fixpoint all_some {A : Type} (l : list (option A)) : option (list A) :=
  match l with
  | [] => Some []
  | Some x :: r => option_map (cons x) (all_some r)
  | None :: _ => None
  end.
(** a column of floating point numbers: every cell is a numeral or missing (openap/prop.py:132) *)
Definition num_col (t : table) (name : string) : option (list (option Q)) :=
  match column t name with Some cs => all_some (map num_cell cs) | None => None end.
(** a column of strings, with [None] for a missing cell.  Some cell is not a number (openap/prop.py:132).  Columns of
    truth values are not modelled: no cell may be one of their words. *)
Definition text_col (t : table) (name : string) : option (list (option string)) :=
  match column t name with
  | Some cs =>
      match all_some (map num_cell cs) with
      | Some _ => None
      | None => if existsb (one_of ["True"; "TRUE"; "true"; "False"; "FALSE"; "false"]%string) cs then None
                else Some (map (fun c => if missing c then None else Some (st_ c)) cs)
      end
  | None => None
  end.

(** ** Fixed width tables *)
(** the delimiters of [read_fwf]: blank, tab and the ends of lines (openap/kinematic.py:63) *)
Definition fwf_delim (c : ascii) : bool :=
  let n := nat_of_ascii c in (n =? 32) || (n =? 9) || (n =? 10) || (n =? 13).
(** mask: the positions at which some row has a character that is no delimiter (openap/kinematic.py:63) *)
Fixpoint mask_or (m : list bool) (l : text) : list bool :=
  match m, l with
  | b :: m', c :: l' => (b || negb (fwf_delim c)) :: mask_or m' l'
  | [], c :: l' => negb (fwf_delim c) :: mask_or [] l'
  | _, [] => m
  end.
Definition fwf_mask (rows : list text) : list bool := fold_left mask_or rows [].
(** the columns: the runs of marked positions, from and up to (openap/kinematic.py:63).  [from] is the start of the
    run that is being read. *)
Fixpoint fwf_spans (p : nat) (from : option nat) (m : list bool) : list (nat * nat) :=
  match m with
  | [] => match from with Some a => [(a, p)] | None => [] end
  | true :: m' => fwf_spans (S p) (match from with Some a => Some a | None => Some p end) m'
  | false :: m' => match from with Some a => (a, p) :: fwf_spans (S p) None m' | None => fwf_spans (S p) None m' end
  end.
(** [s.strip(delimiters)] (openap/kinematic.py:63) *)
Fixpoint strip_left (l : text) : text := match l with c :: r => if fwf_delim c then strip_left r else l | [] => [] end.
Fixpoint strip_right (l : text) : text :=
  match l with
  | [] => []
  | c :: r => match strip_right r with [] => if fwf_delim c then [] else [c] | r' => c :: r' end
  end.
(** [line[from:to].strip(...)] for every column (openap/kinematic.py:63) *)
Definition fwf_cells (spans : list (nat * nat)) (l : text) : list text :=
  map (fun ab => strip_right (strip_left (firstn (snd ab - fst ab) (skipn (fst ab) l)))) spans.
(** rows of blanks are skipped (openap/kinematic.py:63) *)
Definition fwf_lines (l : text) : list text := filter (fun r => negb (forallb fwf_delim r)) (split_on nl l).
(** [pd.read_fwf(file)]: the columns are inferred from the first hundred lines (openap/kinematic.py:63) *)
Definition read_fwf (l : text) : option table :=
  table_of (map (fwf_cells (fwf_spans 0 None (fwf_mask (firstn 100 (split_on nl l))))) (fwf_lines l)).
