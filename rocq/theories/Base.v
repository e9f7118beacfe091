(** Common vocabulary of the model: Python exceptions as values. *)
From Coq Require Export List Arith ZArith Lia Bool.
Export ListNotations.

(** The exception classes the modelled code raises (names as in Python / cis/exceptions.py). *)
Inductive exn : Type :=
| KeyError | ValueError | IndexError | TypeError | AttributeError | OverflowError
| NotImplementedError | ZeroDivisionError
| InvalidCommandLineOptionError | InvalidVariableError | CoordinateNotFoundError
| DuplicateCoordinateError | NoDataInSubsetError | ClassNotFoundError | FileFormatError
| ParserError (* argparse's parser.error: exits the command *)
| InconsistentDimensionsError | UserPrintableException
| AssertionError | ArgumentTypeError | MaskError | EvaluationError | NameError | OSError | InvalidDataTypeError
| InvalidDimensionError | InvalidLineStyleError | InvalidHistogramStyleError
| OutOfFuel   (* not a Python exception: a loop of the model ran out of fuel; excluded by the theorems *).

(** Result of a computation that may raise. *)
Inductive res (A : Type) : Type :=
| Ok (a : A)
| Raises (e : exn).
Arguments Ok {A} a.
Arguments Raises {A} e.

Definition bind {A B} (x : res A) (f : A -> res B) : res B :=
  match x with Ok a => f a | Raises e => Raises e end.
Declare Scope res_scope.
Delimit Scope res_scope with res.
Notation "x <- e ;; f" := (bind e (fun x => f)) (at level 61, e at next level, right associativity) : res_scope.
