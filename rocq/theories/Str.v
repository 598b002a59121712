(** * Python string methods used by the lookup code, on ASCII strings *)
From Coq Require Import String Ascii List Bool Arith Lia.
Import ListNotations.
Open Scope string_scope.

(** [str.upper] / [str.lower] on one ASCII character (openap/prop.py:59, 131, 157; openap/thrust.py:48, 56;
    openap/base.py:30).  Non-ASCII characters are not modelled. *)
Definition up1 (c : ascii) : ascii :=
  let n := nat_of_ascii c in if ((97 <=? n) && (n <=? 122))%nat then ascii_of_nat (n - 32)%nat else c.
Definition low1 (c : ascii) : ascii :=
  let n := nat_of_ascii c in if ((65 <=? n) && (n <=? 90))%nat then ascii_of_nat (n + 32)%nat else c.
Fixpoint upper (s : string) : string := match s with "" => "" | String c t => String (up1 c) (upper t) end.
Fixpoint lower (s : string) : string := match s with "" => "" | String c t => String (low1 c) (lower t) end.

(** [str.strip()] (openap/prop.py:131, 157): removes leading and trailing white space *)
Definition is_space (c : ascii) : bool :=
  let n := nat_of_ascii c in (((9 <=? n) && (n <=? 13)) || ((28 <=? n) && (n <=? 32)))%nat.
Fixpoint lstrip (s : string) : string :=
  match s with "" => "" | String c t => if is_space c then lstrip t else s end.
Fixpoint rstrip (s : string) : string :=
  match s with
  | "" => ""
  | String c t => match rstrip t with
                  | "" => if is_space c then "" else String c ""
                  | r => String c r
                  end
  end.
Definition strip (s : string) : string := rstrip (lstrip s).

(** [a.startswith(b)] (openap/prop.py:134, 162) *)
Definition startswith (s pre : string) : bool := prefix pre s.

(** [sub in s] (openap/thrust.py:56) *)
Fixpoint contains (sub s : string) : bool :=
  prefix sub s || match s with "" => false | String _ t => contains sub t end.

(** the slice [s[-8:-4]] (openap/prop.py:39, openap/drag.py:64, openap/kinematic.py:51) *)
Definition slice84 (s : string) : string :=
  let n := String.length s in substring (n - 8)%nat (n - 4 - (n - 8))%nat s.

(** file name pattern matching of [glob.glob] for patterns without brackets: a star matches any
    sequence, a question mark any one character (openap/prop.py:61, 67) *)
Fixpoint glob_match (p s : string) : bool :=
  match p with
  | "" => match s with "" => true | _ => false end
  | String c p' =>
      if Ascii.eqb c "*" then
        (fix star (s : string) : bool :=
           glob_match p' s || match s with "" => false | String _ t => star t end) s
      else match s with
           | "" => false
           | String c' s' => (Ascii.eqb c "?" || Ascii.eqb c c') && glob_match p' s'
           end
  end.
