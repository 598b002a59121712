(** * Model of Python's import statement as used by the package (openap/__init__.py:1-12 and the imports of all other files)

    A module is executed once, when it is first imported; it is in [sys.modules] from before its first
    statement, and is taken out again if a statement raises.  Importing [a.b] first imports [a], and
    afterwards binds the name [b] in [a].  Threads, reloading, import hooks and [sys.modules] changed by
    hand are not modelled.  Modules are written without the leading [openap.]; the package itself is ["."]. *)
From Coq Require Import String Ascii List Bool Arith.
Import ListNotations.
Open Scope string_scope.

(** libraries that are not part of Python (pyproject.toml:18-24, 31-34; openap/contrail.py:400) *)
Inductive lib : Type := Numpy | Scipy | Pandas | Yaml | Matplotlib | Casadi | Jax | Xarray.
(** what a name can stand for: a module of the package, the object defined under a name at the top level of a module, something
    from another library or from Python's own (openap/__init__.py:1-12) *)
Inductive obj : Type := Mod (m : string) | Obj (m n : string) | Ext (l : option lib) (n : string).
(** statements: import from another library ([None]: Python's own) (openap/aero.py:21); [from m import k as n, ...] with [m]
    a module of the package (openap/aero.py:23); definition of a name, with the names looked up by it (openap/aero.py:331) *)
Inductive stmt : Type :=
| SLib (l : option lib) (ns : list string)
| SFrom (m : string) (ns : list (string * string))
| SBind (n : string) (uses : list (list string)).
(** exceptions of imports *)
Inductive err : Type := ModuleNotFoundError | ImportError | NameError | AttributeError | OutOfFuel.

(** names and what they stand for, sorted by name (openap/__init__.py:1-12) *)
Definition ns : Type := list (string * obj).
(** see [ns] *)
Fixpoint get {A : Type} (l : list (string * A)) (n : string) : option A :=
  match l with [] => None | (k, v) :: t => if String.eqb k n then Some v else get t n end.
(** see [ns] *)
Fixpoint put {A : Type} (l : list (string * A)) (n : string) (v : A) : list (string * A) :=
  match l with
  | [] => [(n, v)]
  | (k, w) :: t => match String.compare n k with Lt => (n, v) :: l | Eq => (n, v) :: t | Gt => (k, w) :: put t n v end
  end.
(** see [ns] *)
Definition del {A : Type} (l : list (string * A)) (n : string) : list (string * A) := filter (fun x => negb (String.eqb (fst x) n)) l.

(** [sys.modules], with the names of each module *)
Definition state : Type := list (string * ns).
(** binding a name in a module *)
Definition bind (s : state) (m n : string) (o : obj) : state := match get s m with Some d => put s m (put d n o) | None => s end.

(** [a.b.c] is [a.b] and [c] (openap/extra/aero.py:26) *)
Fixpoint split_last (m : string) : option (string * string) :=
  match m with
  | "" => None
  | String c t =>
      match split_last t with
      | Some (a, b) => Some (String c a, b)
      | None => if Ascii.eqb c "." then Some ("", t) else None
      end
  end.
(** the package that a module is in, and its name there (openap/extra/__init__.py:1-1) *)
Definition parent (m : string) : option (string * string) :=
  if String.eqb m "." then None else match split_last m with Some x => Some x | None => Some (".", m) end.
(** the module [n] of the package [m] (openap/__init__.py:6-7) *)
Definition sub (m n : string) : string := if String.eqb m "." then n else m ++ "." ++ n.

(** the package: for each module whether it is a package itself, and its statements *)
Definition source : Type := list (string * (bool * list stmt)).

(** looking up a name, or an attribute of it, in a module (e.g. openap/addon/bada3.py:272 [base.DragBase]); attributes of other objects are not looked into *)
Definition look (s : state) (m : string) (p : list string) : option err :=
  match get s m with
  | None => Some NameError
  | Some d =>
      match p with
      | [] => None
      | n :: q =>
          match get d n with
          | None => Some NameError
          | Some (Mod m') =>
              match q with
              | [] => None
              | a :: _ => match get s m' with Some d' => match get d' a with Some _ => None | None => Some AttributeError end | None => None end
              end
          | Some _ => None
          end
      end
  end.
(** see [look] *)
Fixpoint look_all (s : state) (m : string) (ps : list (list string)) : option err :=
  match ps with [] => None | p :: t => match look s m p with Some e => Some e | None => look_all s m t end end.

(** [from t import k]: the name in [t], else the module [t.k] (openap/__init__.py:6) *)
Definition import_name (s : state) (t k : string) : err + obj :=
  match get s t with
  | None => inl ImportError
  | Some d =>
      match get d k with
      | Some o => inr o
      | None => match get s (sub t k) with Some _ => inr (Mod (sub t k)) | None => inl ImportError end
      end
  end.
(** the submodules of the names of a [from] import that are not there yet (openap/__init__.py:6); [ld] imports a module; CPython calls [__import__] for them, which also imports the package *)
Fixpoint submodules (src : source) (ld : string -> state -> state * option err) (t : string) (ks : list string) (s : state) : state * option err :=
  match ks with
  | [] => (s, None)
  | k :: r =>
      match get s t with
      | Some d =>
          match get d k, get src (sub t k) with
          | None, Some _ =>
              match ld (sub t k) s with
              | (s', Some e) => (s', Some e)
              | (s', None) => match ld "." s' with (s'', Some e) => (s'', Some e) | (s'', None) => submodules src ld t r s'' end
              end
          | _, _ => submodules src ld t r s
          end
      | None => (s, None)
      end
  end.
(** importing a module and the submodules asked for (openap/__init__.py:1-12) *)
Definition import_from (src : source) (ld : string -> state -> state * option err) (t : string) (ks : list string) (s : state) : state * option err :=
  match ld t s with
  | (s1, Some e) => (s1, Some e)
  | (s1, None) => match get src t with Some (true, _) => submodules src ld t ks s1 | _ => (s1, None) end
  end.
(** binding the names of a [from] import in the order written *)
Fixpoint bind_names (m t : string) (ks : list (string * string)) (s : state) : state * option err :=
  match ks with
  | [] => (s, None)
  | (k, n) :: r => match import_name s t k with inl e => (s, Some e) | inr o => bind_names m t r (bind s m n o) end
  end.
(** the statements of a module *)
Fixpoint execute (src : source) (avail : lib -> bool) (ld : string -> state -> state * option err) (m : string) (b : list stmt) (s : state) : state * option err :=
  match b with
  | [] => (s, None)
  | x :: r =>
      let res :=
        match x with
        | SLib l l' =>
            if match l with Some l0 => avail l0 | None => true end
            then (fold_left (fun s n => bind s m n (Ext l n)) l' s, None) else (s, Some ModuleNotFoundError)
        | SFrom t ks =>
            match import_from src ld t (map fst ks) s with
            | (s1, Some e) => (s1, Some e)
            | (s1, None) => bind_names m t ks s1
            end
        | SBind n uses => match look_all s m uses with Some e => (s, Some e) | None => (bind s m n (Obj m n), None) end
        end in
      match res with (s', Some e) => (s', Some e) | (s', None) => execute src avail ld m r s' end
  end.
(** importing a module: nothing if it is in [sys.modules], else its parent and then its statements (openap/__init__.py:1-12) *)
Fixpoint load (src : source) (avail : lib -> bool) (fuel : nat) (m : string) (s : state) : state * option err :=
  match fuel with
  | 0 => (s, Some OutOfFuel)
  | S f =>
      match get s m with
      | Some _ => (s, None)
      | None =>
          match (match parent m with Some (p, _) => load src avail f p s | None => (s, None) end) with
          | (s1, Some e) => (s1, Some e)
          | (s1, None) =>
              match get s1 m with
              | Some _ => (s1, None)
              | None =>
                  match get src m with
                  | None => (s1, Some ModuleNotFoundError)
                  | Some (_, b) =>
                      match execute src avail (load src avail f) m b (put s1 m []) with
                      | (s2, Some e) => (del s2 m, Some e)
                      | (s2, None) => (match parent m with Some (p, c) => bind s2 p c (Mod m) | None => s2 end, None)
                      end
                  end
              end
          end
      end
  end.

(** what a user writes: [import m], [import m as x], [from m import n], and [openap.a.b] after [import openap] (openap/aero.py:11-18) *)
Inductive command : Type := CImport (m : string) | CImportAs (m : string) | CFrom (m n : string).
(** [import a.b as x] gives the attribute [b] of [a] (or the module, when there is no such attribute) *)
Fixpoint chain (s : state) (o : obj) (path : list string) : err + obj :=
  match path with
  | [] => inr o
  | n :: r => match o with Mod m => match import_name s m n with inl e => inl e | inr o' => chain s o' r end | _ => inl ImportError end
  end.
(** the names between the dots *)
Fixpoint dots (m : string) : list string :=
  match m with
  | "" => [""]
  | String c t => if Ascii.eqb c "." then "" :: dots t else match dots t with a :: r => String c a :: r | [] => [] end
  end.
(** see [chain] *)
Definition path (m : string) : list string := if String.eqb m "." then [] else dots m.
(** one command in an interpreter with the given [sys.modules] *)
Definition do (src : source) (avail : lib -> bool) (fuel : nat) (c : command) (s : state) : state * (err + obj) :=
  match c with
  | CImport m =>
      match load src avail fuel m s with
      | (s1, Some e) => (s1, inl e)
      | (s1, None) => match load src avail fuel "." s1 with (s2, Some e) => (s2, inl e) | (s2, None) => (s2, inr (Mod ".")) end
      end
  | CImportAs m =>
      match load src avail fuel m s with
      | (s1, Some e) => (s1, inl e)
      | (s1, None) => match load src avail fuel "." s1 with (s2, Some e) => (s2, inl e) | (s2, None) => (s2, chain s2 (Mod ".") (path m)) end
      end
  | CFrom m n =>
      match import_from src (load src avail fuel) m [n] s with
      | (s1, Some e) => (s1, inl e)
      | (s1, None) => (s1, import_name s1 m n)
      end
  end.
(** a session: commands one after the other, going on after errors *)
Definition session (src : source) (avail : lib -> bool) (fuel : nat) (h : list command) : state :=
  fold_left (fun s c => fst (do src avail fuel c s)) h [].
