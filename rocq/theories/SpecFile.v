(** * How data files may be written: specification for the readers of [FileText] *)
From Coq Require Import String Ascii List Bool Arith ZArith QArith.
From Verif Require Import Regex FileText.
Import ListNotations.
Open Scope char_scope.
Open Scope nat_scope.
Open Scope list_scope.

(** ** Pieces *)
Definition blanks (n : nat) : text := repeat " " n.
(** lines written one after the other, with a character between them *)
Fixpoint join (c : ascii) (ls : list text) : text :=
  match ls with [] => [] | [l] => l | l :: r => l ++ c :: join c r end.
(** the character of a digit *)
Definition dig (d : nat) : ascii := ascii_of_nat (48 + d).
Definition digits (ds : list nat) : Prop := List.Forall (fun d => d < 10) ds.
(** the number written by a list of digits *)
Definition horner (ds : list nat) : Z := fold_left (fun v d => 10 * v + Z.of_nat d)%Z ds 0%Z.
Definition minus (neg : bool) : text := if neg then ["-"] else [].
Definition sgn (neg : bool) (z : Z) : Z := if neg then (- z)%Z else z.
Definition printable (c : ascii) : Prop := 32 <= nat_of_ascii c <= 126.

(** ** Names and values of a YAML file *)
Definition letter (c : ascii) : bool := let n := nat_of_ascii c in ((65 <=? n) && (n <=? 90)) || ((97 <=? n) && (n <=? 122)).
Definition name_char (c : ascii) : bool :=
  let n := nat_of_ascii c in letter c || ((48 <=? n) && (n <=? 57)) || existsb (Ascii.eqb c) [" "; "-"; "/"; "("; ")"; "."; "+"; "_"; ","; "&"].
(** words with a meaning of their own *)
Definition reserved : list string :=
  ["null"; "Null"; "NULL"; "true"; "True"; "TRUE"; "false"; "False"; "FALSE"; "yes"; "Yes"; "YES"; "no"; "No"; "NO";
   "on"; "On"; "ON"; "off"; "Off"; "OFF"]%string.
(** a name: begins with a letter, does not end with a blank *)
Definition is_name (s : text) : Prop :=
  (exists c r, s = c :: r /\ letter c = true) /\ (exists i c, s = i ++ [c] /\ c <> " ") /\
  List.Forall (fun c => name_char c = true) s /\ ~ In (st_ s) reserved.
(** the words for truth and for falsehood *)
Definition truth_words : list (string * bool) :=
  [("true", true); ("True", true); ("TRUE", true); ("yes", true); ("Yes", true); ("YES", true); ("on", true); ("On", true); ("ON", true);
   ("false", false); ("False", false); ("FALSE", false); ("no", false); ("No", false); ("NO", false); ("off", false); ("Off", false);
   ("OFF", false)]%string.
(** ten to the power of the number of the digits, or one over it *)
Definition tens (neg : bool) (es : list nat) : Q :=
  if neg then 1 # Pos.of_nat (10 ^ Z.to_nat (horner es)) else inject_Z (10 ^ horner es).
(** the texts that stand for null, a truth value, a whole number, a decimal number, without and with a (signed) exponent,
    and a string *)
Inductive stands_for : text -> scal -> Prop :=
| sf_null w : In w ["null"; "Null"; "NULL"; "~"]%string -> stands_for (tx w) SNull
| sf_bool w b : In (w, b) truth_words -> stands_for (tx w) (SBool b)
| sf_int neg ds : ds <> [] -> digits ds -> (hd 0 ds <> 0 \/ ds = [0]) ->
    stands_for (minus neg ++ map dig ds) (SInt (sgn neg (horner ds)))
| sf_dec neg ds fs q : ds <> [] -> digits ds -> digits fs ->
    q = Qmake (sgn neg (horner (ds ++ fs))) (Pos.of_nat (10 ^ length fs)) ->
    stands_for (minus neg ++ map dig ds ++ "." :: map dig fs) (SFloat q)
| sf_exp neg ds fs (big eneg : bool) es q : ds <> [] -> digits ds -> digits fs -> es <> [] -> digits es ->
    q = (Qmake (sgn neg (horner (ds ++ fs))) (Pos.of_nat (10 ^ length fs)) * tens eneg es)%Q ->
    stands_for (minus neg ++ map dig ds ++ "." :: map dig fs ++ (if big then "E" else "e")%char :: (if eneg then "-" else "+")%char :: map dig es)
      (SFloat q)
| sf_name s : is_name s -> stands_for s (SStr (st_ s)).

(** ** Lines *)
(** what may stand at the end of a line *)
Inductive line_end : text -> Prop :=
| le_blanks n : line_end (blanks n)
| le_comment n c : List.Forall printable c -> line_end (blanks (S n) ++ "#" :: c).
(** lines: nothing or a comment; a name with a colon; a name with a colon and a value; an item *)
Inductive line_is : text -> option (nat * entry) -> Prop :=
| li_blank n : line_is (blanks n) None
| li_comment n c : List.Forall printable c -> line_is (blanks n ++ "#" :: c) None
| li_key n k a e : is_name k -> line_end e ->
    line_is (blanks n ++ k ++ blanks a ++ ":" :: e) (Some (n, EKey (st_ k) None))
| li_value n k a b v x e : is_name k -> stands_for v x -> line_end e ->
    line_is (blanks n ++ k ++ blanks a ++ ":" :: blanks (S b) ++ v ++ e) (Some (n, EKey (st_ k) (Some x)))
| li_item n b v x e : stands_for v x -> line_end e ->
    line_is (blanks n ++ "-" :: blanks (S b) ++ v ++ e) (Some (n, EItem x)).
Inductive lines_are : list text -> list (nat * entry) -> Prop :=
| la_nil : lines_are [] []
| la_skip l ls es : line_is l None -> lines_are ls es -> lines_are (l :: ls) es
| la_line l ls e es : line_is l (Some e) -> lines_are ls es -> lines_are (l :: ls) (e :: es).

(** ** Mappings *)
(** [mapping n es m]: lines of indentation n (and deeper ones below their keys) that spell the pairs m.  Inside, no name
    stands twice in one mapping. *)
Inductive mapping (n : nat) : list (nat * entry) -> list (string * yml) -> Prop :=
| ma_nil : mapping n [] []
| ma_value k v es m : mapping n es m -> mapping n ((n, EKey k (Some v)) :: es) ((k, Sc v) :: m)
| ma_null k es m : mapping n es m -> mapping n ((n, EKey k None) :: es) ((k, Sc SNull) :: m)
| ma_map k j sub m' es m : n < j -> sub <> [] -> mapping j sub m' -> NoDup (map fst m') -> mapping n es m ->
    mapping n ((n, EKey k None) :: sub ++ es) ((k, Map m') :: m)
| ma_seq k j vs es m : n <= j -> vs <> [] -> mapping n es m ->
    mapping n ((n, EKey k None) :: map (fun v => (j, EItem v)) vs ++ es) ((k, Seq (map Sc vs)) :: m).
(** the last value given to a name *)
Definition last_value (m : list (string * yml)) (k : string) : option yml :=
  option_map snd (find (fun p => String.eqb (fst p) k) (rev m)).
(** the names, each where it stands first *)
Definition first_names (m : list (string * yml)) : list string := rev (nodup string_dec (rev (map fst m))).
