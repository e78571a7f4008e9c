(** Common vocabulary of the model: exceptions as values, exact rationals,
    Python's integer conversions and rounding. *)
From Coq Require Export String Ascii.
From Coq Require Export ZArith QArith Qround Qcanon Bool Arith.
From Coq Require Export List.
Export ListNotations.
Set Implicit Arguments.

(** ** Exceptions.  One constructor per Python exception class that the modelled
    code raises, directly or through numpy/dict/list operations.
    raised e.g. in spectra.py:186-193, config.py:79, minimise.py:124-135, fit.py:170-214 *)
Inductive exn : Set :=
| EException          (* raise Exception(...) *)
| EValueError | EIndexError | EKeyError | ETypeError
| EZeroDivisionError | EAttributeError | ENotImplementedError
| EAxisError          (* numpy: 'axis' entry is out of bounds *)
| ELimitError         (* echidna/errors/custom_errors.py:LimitError *)
| ECompatibilityError (* echidna/errors/custom_errors.py:CompatibilityError *)
| EIOError.

(** Equality test of exception classes, as made by the [except] clauses of the code, e.g. fill_spectrum.py:298. *)
Definition exn_eqb (a b : exn) : bool :=
  match a, b with
  | EException, EException | EValueError, EValueError | EIndexError, EIndexError
  | EKeyError, EKeyError | ETypeError, ETypeError
  | EZeroDivisionError, EZeroDivisionError | EAttributeError, EAttributeError
  | ENotImplementedError, ENotImplementedError | EAxisError, EAxisError
  | ELimitError, ELimitError | ECompatibilityError, ECompatibilityError
  | EIOError, EIOError => true
  | _, _ => false
  end.

(** Result of a Python expression: a value or a raised exception. e.g. parameter.py:291-303 *)
Inductive res (A : Type) : Type :=
| Ok (a : A)
| Err (e : exn).
Arguments Ok {A} a.
Arguments Err {A} e.

(** A statement after another: the first exception ends the call (every [raise] in /repo/echidna).
    e.g. spectra.py:186-200 *)
Definition rbind {A B} (r : res A) (f : A -> res B) : res B :=
  match r with Ok a => f a | Err e => Err e end.
(** The result of a call used in an expression (same role as [rbind]). e.g. spectra.py:571 *)
Definition rmap {A B} (f : A -> B) (r : res A) : res B :=
  match r with Ok a => Ok (f a) | Err e => Err e end.
Notation "'do' x <- r ; k" := (rbind r (fun x => k))
  (at level 200, x pattern, r at level 100, k at level 200, right associativity).

(** Did the call return?  (No line of its own in the code.); used for calls such as spectra.py:65-138 *)
Definition is_ok {A} (r : res A) : bool := match r with Ok _ => true | Err _ => false end.

(** Evaluate a function on every element, stopping at the first exception
    (a Python [for] loop that appends to a list). e.g. smear.py:243-283 *)
Fixpoint rmapM {A B} (f : A -> res B) (l : list A) : res (list B) :=
  match l with
  | [] => Ok []
  | a :: l' => do b <- f a; do bs <- rmapM f l'; Ok (b :: bs)
  end.

(** ** Exact rationals.  Every finite Python float is a rational; arithmetic is
    exact here (no rounding). *)
Delimit Scope Qc_scope with Qc.
(** A Python integer used as a float, e.g. parameter.py:1067. *)
Definition zq (z : Z) : Qc := Q2Qc (inject_Z z).
(** A length or loop counter used as a float. e.g. parameter.py:63, 103 *)
Definition nq (n : nat) : Qc := zq (Z.of_nat n).
(** A decimal literal of the code, e.g. 0.99 in spectra.py:500. *)
Definition qq (n : Z) (d : positive) : Qc := Q2Qc (n # d).

(** Float comparison [<=], e.g. spectra.py:191. *)
Definition qle (x y : Qc) : bool := Qle_bool (this x) (this y).
(** Float comparison [<], e.g. spectra.py:191. *)
Definition qlt (x y : Qc) : bool := negb (qle y x).
(** Float comparison [==], e.g. limit.py:123. *)
Definition qeq (x y : Qc) : bool := Qc_eq_bool x y.
(** numpy.fabs, e.g. spectra.py:500. *)
Definition qabs (x : Qc) : Qc := if qle 0 x then x else (- x)%Qc.

(** math.floor / numpy.ceil; spectra.py:488-490 *)
Definition qfloor (x : Qc) : Z := Qfloor (this x).
(** numpy.ceil, e.g. spectra.py:490. *)
Definition qceil (x : Qc) : Z := (- qfloor (- x)%Qc)%Z.
(** Python's [int(x)]: truncation towards zero. parameter.py:63, 1074; spectra.py:488 *)
Definition qtrunc (x : Qc) : Z := if qle 0 x then qfloor x else qceil x.
(** Python 2's [round(x)]: half away from zero. parameter.py:1140 *)
Definition qround (x : Qc) : Z :=
  if qle 0 x then qfloor (x + qq 1 2)%Qc else qceil (x - qq 1 2)%Qc.

(** Division of Python floats: raises on a zero divisor. e.g. spectra.py:166, 390 *)
Definition qdiv (x y : Qc) : res Qc :=
  if qeq y 0 then Err EZeroDivisionError else Ok (x / y)%Qc.

(** numpy.isclose / numpy.allclose on scalars, default tolerances:
    |a - b| <= atol + rtol * |b|, atol = 1e-8, rtol = 1e-5. fit.py:328-334; limit.py:156, 311 *)
Definition isclose (a b : Qc) : bool :=
  qle (qabs (a - b)) (qq 1 100000000 + qq 1 100000 * qabs b)%Qc.

(** Sum of a list of rationals (numpy sum, Python sum). e.g. spectra.py:571; test_statistic.py:207 *)
Definition qsum (l : list Qc) : Qc := fold_right Qcplus 0%Qc l.

(** nat is the default interpretation in the model files. *)
Open Scope nat_scope.
