(** * Specification of the layout of text files, independent of the regular expressions

    Used by P_Bada3Text.v.  Texts are lists of ASCII characters. *)
From Coq Require Import String Ascii List Bool Arith ZArith Reals.
Import ListNotations.
Open Scope list_scope.
Open Scope nat_scope.

Definition chars (s : string) : list ascii := list_ascii_of_string s.
Definition code (c : ascii) : nat := nat_of_ascii c.
(** white space: tab, newline, vertical tab, form feed, carriage return, the four separators, space *)
Definition blank (c : ascii) : Prop := 9 <= code c <= 13 \/ 28 <= code c <= 32.
Definition decimal_digit (c : ascii) : Prop := 48 <= code c <= 57.
Definition number_char (c : ascii) : Prop := decimal_digit c \/ In c (chars ".E+-").
(** the same letter, in upper or lower case *)
Definition same_letter (c d : ascii) : Prop :=
  c = d \/ (65 <= code c <= 90 /\ code d = code c + 32) \/ (65 <= code d <= 90 /\ code c = code d + 32).

(** ** Rows *)
Inductive field : Type := Blanks | Number | Digits | Word | Exactly (s : string) | AnyCase (s : string).
(** the characters of a field that is a run of characters of one kind *)
Definition kind (f : field) (c : ascii) : Prop :=
  match f with Blanks => blank c | Number => number_char c | Digits => decimal_digit c | Word => ~ blank c | _ => False end.
(** a non-empty run that the next character does not continue *)
Definition run_of (f : field) (a b : list ascii) : Prop :=
  a <> [] /\ Forall (kind f) a /\ forall c b', b = c :: b' -> ~ kind f c.
(** the text starts with the given fields; the numbers, digits and words are the tokens read *)
Inductive reads : list field -> list ascii -> list (list ascii) -> Prop :=
| R_end : forall l, reads [] l []
| R_blanks : forall fs a b ts, run_of Blanks a b -> reads fs b ts -> reads (Blanks :: fs) (a ++ b) ts
| R_token : forall f fs a b ts, In f [Number; Digits; Word] -> run_of f a b -> reads fs b ts -> reads (f :: fs) (a ++ b) (a :: ts)
| R_exactly : forall s fs b ts, reads fs b ts -> reads (Exactly s :: fs) (chars s ++ b) ts
| R_anycase : forall s fs a b ts, Forall2 same_letter (chars s) a -> reads fs b ts -> reads (AnyCase s :: fs) (a ++ b) ts.
(** "CD" and n numbers *)
Fixpoint numbers (n : nat) : list field := match n with 0 => [] | S n' => Blanks :: Number :: numbers n' end.
Definition row (n : nat) : list field := Exactly "CD" :: numbers n.

(** ** Places *)
(** [b] is the text from the first place on where [P] holds *)
Definition first_place (P : list ascii -> Prop) (l b : list ascii) : Prop :=
  exists a, l = a ++ b /\ P b /\ forall a' b', l = a' ++ b' -> List.length a' < List.length a -> ~ P b'.
(** the tokens of the first place with the given fields *)
Definition found_at (fs : list field) (l : list ascii) (ts : list (list ascii)) : Prop :=
  exists b, first_place (fun b => exists ts, reads fs b ts) l b /\ reads fs b ts.
(** the same, after the first occurrence of a heading *)
Definition section (h : string) (fs : list field) (l : list ascii) (ts : list (list ascii)) : Prop :=
  exists rest, first_place (fun b => exists c, b = chars h ++ c) l (chars h ++ rest) /\ found_at fs rest ts.

(** ** Decimal numbers *)
Inductive nat_value : list ascii -> Z -> Prop :=
| V_nil : nat_value [] 0
| V_digit : forall l v c, nat_value l v -> decimal_digit c -> nat_value (l ++ [c]) (10 * v + (Z.of_nat (code c) - 48)).
Inductive sign : list ascii -> Z -> Prop :=
| S_none : sign [] 1
| S_plus : sign (chars "+") 1
| S_minus : sign (chars "-") (-1).
Inductive exponent : list ascii -> Z -> Prop :=
| E_none : exponent [] 0
| E_some : forall sg s ds v, sign sg s -> ds <> [] -> nat_value ds v -> exponent (chars "E" ++ sg ++ ds) (s * v).
(** sign, digits before and after the decimal point, exponent: [.14000E+03] is 140 *)
Inductive number_text : list ascii -> R -> Prop :=
| N_text : forall sg s ip fp m ex e (point : bool), sign sg s -> ip ++ fp <> [] -> nat_value (ip ++ fp) m -> (fp <> [] -> point = true) -> exponent ex e ->
    number_text (sg ++ ip ++ (if point then chars "." else []) ++ fp ++ ex) (IZR (s * m) * powerRZ 10 (e - Z.of_nat (List.length fp))).

(** the tokens at the positions [idx] are numbers with the values [xs] *)
Definition given (S : list ascii -> list (list ascii) -> Prop) (idx : list nat) (l : list ascii) (xs : list R) : Prop :=
  exists ts, S l ts /\ Forall2 number_text (map (fun i => nth i ts []) idx) xs.
Definition missing (S : list ascii -> list (list ascii) -> Prop) (l : list ascii) : Prop := forall ts, ~ S l ts.
Definition not_a_number (S : list ascii -> list (list ascii) -> Prop) (idx : list nat) (l : list ascii) : Prop :=
  exists ts i, S l ts /\ In i idx /\ forall v, ~ number_text (nth i ts []) v.

(** ** The block with the type of the aircraft *)
Definition newline : ascii := "010"%char.
Definition ends_line (x : list ascii) : Prop := exists p, x = p ++ [newline].
(** [t] is the text from the first "Actype" to the end of the first line after it that starts with "CD" and a blank
    (blanks after "CD" may go on over the end of the line) *)
Definition type_block (l t : list ascii) : Prop :=
  exists rest x bl line post,
    first_place (fun b => exists c, b = chars "Actype" ++ c) l (chars "Actype" ++ rest) /\
    rest = x ++ chars "CD" ++ bl ++ line ++ post /\ ends_line x /\
    run_of Blanks bl (line ++ post) /\ ~ In newline line /\ (forall c b', post = c :: b' -> c = newline) /\
    (forall x' c y, rest = x' ++ chars "CD" ++ c :: y -> ends_line x' -> blank c -> List.length x <= List.length x') /\
    t = chars "Actype" ++ x ++ chars "CD" ++ bl ++ line.
(** the word occurs, in any letter case *)
Definition mentions (w : string) (t : list ascii) : Prop := exists a b c, t = a ++ b ++ c /\ Forall2 same_letter (chars w) b.
(** the first number in front of the word "engine" *)
Definition engine_count : list ascii -> list (list ascii) -> Prop := found_at [Digits; Blanks; AnyCase "engine"].

(** ** The rows of an OPF file *)
Definition mass_row := section "Mass (t)" (row 5).
Definition envelope_row := section "Flight envelope" (row 5).
Definition area_row := section "Wing Area" [Exactly "CD "; Digits; Blanks; Number].
(** number, phase, name, stall speed, CD0, CD2 *)
Definition drag_row (phase : string) :=
  found_at [Exactly "CD"; Blanks; Digits; Blanks; Exactly phase; Blanks; Word; Blanks; Number; Blanks; Number; Blanks; Number].
Definition gear_row := found_at [Exactly "CD "; Digits; Blanks; Exactly "DOWN"; Blanks; Number].
Definition climb_row := section "Max climb thrust coefficients" (row 5).
Definition descent_row := section "Desc(low)" (row 5).
Definition fuel_row := section "Thrust Specific Fuel Consumption Coefficients" (row 2).
Definition descent_fuel_row := section "Descent Fuel Flow Coefficients" (row 2).
Definition cruise_fuel_row := section "Cruise Corr" (row 1).
Definition level_row := section "Desc level" (row 3).
Definition ground_row := section "Ground" (row 5).
(** the rows that are read, with the positions of the tokens taken *)
Definition readings : list ((list ascii -> list (list ascii) -> Prop) * list nat) :=
  [(mass_row, [0; 1; 2; 3]); (envelope_row, [0; 1; 2]); (area_row, [1]);
   (drag_row "CR", [3; 4]); (drag_row "IC", [3; 4]); (drag_row "TO", [3; 4]); (drag_row "AP", [3; 4]); (drag_row "LD", [3; 4]);
   (gear_row, [1]); (climb_row, [0; 1; 2; 3; 4]); (descent_row, [0; 1; 2; 3; 4]); (fuel_row, [0; 1]); (descent_fuel_row, [0; 1]);
   (cruise_fuel_row, [0]); (level_row, [2]); (ground_row, [0; 1; 2; 3])].
