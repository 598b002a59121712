(** * Outcome of a Python call

    A value or an exception; only the kinds met in the modelled code (e.g. openap/prop.py:74-79, 181,
    openap/thrust.py:58-63, openap/phase.py:61-64, openap/addon/bada4.py:31, 183).  Messages are not modelled. *)
Inductive pyerr : Type := TypeError | ValueError | KeyError | IndexError | AttributeError | NameError | ZeroDivisionError | FileNotFoundError
  | AssertionError | ParseError.
(** result of a call that may raise (used for every function below that contains a [raise] or can fail) *)
Definition py (A : Type) : Type := (pyerr + A)%type.
