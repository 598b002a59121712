(** * The part of Python's [re] module used by openap/addon/bada3.py

    Backtracking matching of patterns built from character classes, repetitions of a class (greedy and
    lazy), groups, optional parts and the anchors; ASCII text.  The order of the attempts is Python's:
    a greedy repetition tries the longest run first, a lazy one the shortest, an optional part is
    tried before it is skipped, and [search] takes the leftmost start. *)
From Coq Require Import String Ascii List Bool Arith.
From Verif Require Import Str.
Import ListNotations.
Open Scope list_scope.

(** a text (openap/addon/bada3.py:66-67: [f.read()]) *)
Definition text : Type := list ascii.
(** a set of characters (openap/addon/bada3.py:100-105, 137-139) *)
Definition cls : Type := ascii -> bool.
(** a string as a text, and back (openap/addon/bada3.py:123) *)
Definition tx (s : string) : text := list_ascii_of_string s.
(** see [tx] (openap/addon/bada3.py:110, 141) *)
Definition st_ (l : text) : string := string_of_list_ascii l.

(** patterns (openap/addon/bada3.py:100-105, 137-139, 153-168, 173-232); [Rep lazy min p] is [p{min,}] or [p{min,}?];
    [Bol] and [Eol] are ^ and $, [multi] with the flag re.MULTILINE *)
Inductive re : Type :=
| Eps
| One (p : cls)
| Rep (lazy : bool) (min : nat) (p : cls)
| Seq (a b : re)
| Opt (a : re)
| Grp (n : nat) (a : re)
| Bol (multi : bool)
| Eol (multi : bool).

(** position in the text: the character before, the text after; and the groups closed so far, the last
    one first (openap/addon/bada3.py:111, 141) *)
Record pos : Type := mkPos { p_prev : option ascii; p_rest : text; p_groups : list (nat * text) }.

(** greedy repetition: as many characters as possible, giving back one at a time
    (e.g. openap/addon/bada3.py:101 [\S+]) *)
Fixpoint greedy {A : Type} (p : cls) (min : nat) (prev : option ascii) (l : text) (k : option ascii -> text -> option A) : option A :=
  match l with
  | c :: t =>
      if p c then
        match greedy p (pred min) (Some c) t k with
        | Some r => Some r
        | None => if (min =? 0)%nat then k prev l else None
        end
      else if (min =? 0)%nat then k prev l else None
  | [] => if (min =? 0)%nat then k prev l else None
  end.
(** lazy repetition: as few characters as possible, taking one more at a time
    (e.g. openap/addon/bada3.py:103 [.+?]) *)
Fixpoint reluctant {A : Type} (p : cls) (min : nat) (prev : option ascii) (l : text) (k : option ascii -> text -> option A) : option A :=
  match (if (min =? 0)%nat then k prev l else None) with
  | Some r => Some r
  | None =>
      match l with
      | c :: t => if p c then reluctant p (pred min) (Some c) t k else None
      | [] => None
      end
  end.

(** the newline character (openap/addon/bada3.py:153, 104) *)
Definition nl : ascii := "010"%char.
(** matching [r] at a position, then whatever comes after (openap/addon/bada3.py:109, 140, 145) *)
Fixpoint run {A : Type} (r : re) (s : pos) (k : pos -> option A) : option A :=
  match r with
  | Eps => k s
  | One p => match p_rest s with c :: t => if p c then k (mkPos (Some c) t (p_groups s)) else None | [] => None end
  | Rep lz min p =>
      (if lz then reluctant p min (p_prev s) (p_rest s) (fun c t => k (mkPos c t (p_groups s)))
       else greedy p min (p_prev s) (p_rest s) (fun c t => k (mkPos c t (p_groups s))))
  | Seq a b => run a s (fun s' => run b s' k)
  | Opt a => match run a s k with Some x => Some x | None => k s end
  | Grp n a =>
      run a s (fun s' => k (mkPos (p_prev s') (p_rest s')
                              ((n, firstn (length (p_rest s) - length (p_rest s')) (p_rest s)) :: p_groups s')))
  | Bol multi =>
      match p_prev s with
      | None => k s
      | Some c => if multi && Ascii.eqb c nl then k s else None
      end
  | Eol multi =>
      match p_rest s with
      | [] => k s
      | [c] => if Ascii.eqb c nl then k s else None
      | c :: _ => if multi && Ascii.eqb c nl then k s else None
      end
  end.

(** a match object: the matched text (group 0) and the groups (openap/addon/bada3.py:109-111, 155) *)
Definition re_match (r : re) (prev : option ascii) (l : text) : option (text * list (nat * text)) :=
  match run r (mkPos prev l []) Some with
  | Some s => Some (firstn (length l - length (p_rest s)) l, p_groups s)
  | None => None
  end.
(** [re.search] from a position on (openap/addon/bada3.py:140, 145, 153, 158) *)
Fixpoint search_from (r : re) (prev : option ascii) (l : text) : option (text * list (nat * text)) :=
  match re_match r prev l with
  | Some m => Some m
  | None => match l with [] => None | c :: t => search_from r (Some c) t end
  end.
(** [re.search(r, l)] *)
Definition re_search (r : re) (l : text) : option (text * list (nat * text)) := search_from r None l.
(** [m.group(n)] for a group that took part in the match (openap/addon/bada3.py:141, 147) *)
Fixpoint group (n : nat) (g : list (nat * text)) : text :=
  match g with [] => [] | (i, t) :: g' => if (i =? n)%nat then t else group n g' end.

(** a literal string in a pattern (openap/addon/bada3.py:138, 174) *)
Fixpoint lit_of (l : text) : re := match l with [] => Eps | c :: t => Seq (One (Ascii.eqb c)) (lit_of t) end.
(** see [lit_of] *)
Definition lit (s : string) : re := lit_of (tx s).
(** a literal with re.IGNORECASE (openap/addon/bada3.py:158-168) *)
Fixpoint lit_ic_of (l : text) : re :=
  match l with [] => Eps | c :: t => Seq (One (fun d => Ascii.eqb (low1 c) (low1 d))) (lit_ic_of t) end.
(** see [lit_ic_of] *)
Definition lit_ic (s : string) : re := lit_ic_of (tx s).

(** [\d] (openap/addon/bada3.py:138) *)
Definition digit : cls := fun c => let n := nat_of_ascii c in ((48 <=? n) && (n <=? 57))%nat.
(** [\S] (openap/addon/bada3.py:101) *)
Definition nonspace : cls := fun c => negb (is_space c).
(** [.] without re.DOTALL (openap/addon/bada3.py:102) *)
Definition dot : cls := fun c => negb (Ascii.eqb c nl).
(** [.] with re.DOTALL, [[\s\S]] (openap/addon/bada3.py:145, 153) *)
Definition anychar : cls := fun _ => true.
(** [[\d.E+-]] (openap/addon/bada3.py:138) *)
Definition numchar : cls := fun c =>
  digit c || Ascii.eqb c "." || Ascii.eqb c "E" || Ascii.eqb c "+" || Ascii.eqb c "-".
