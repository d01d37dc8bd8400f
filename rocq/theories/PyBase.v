(** Exceptions and control flow of Python.

    A Python call either returns a value or raises.  Exceptions are modelled by
    their class only; messages are dropped. *)
From Coq Require Import List Bool.
Import ListNotations.

(** used by cli.py:62-114 (among others): The exception classes that can leave the modelled functions.
    - [ValueError] also stands for [json.JSONDecodeError] (a subclass);
    - [UnboundLocalError] is raised when a local variable is read before it
      has been assigned;
    - [ValidationError] is marshmallow's class, which is not a ValueError;
    - [OSError] stands for all OSErrors but FileNotFoundError;
    - [CsvError] is csv.Error;
    - [ClickAbort] and [ClickUsageError] end the command line tool with exit codes 1 and 2. *)
Inductive exn : Set :=
| ValueError
| TypeError
| AttributeError
| IndexError
| KeyError
| UnboundLocalError
| AssertionError
| NotImplementedError
| ValidationError
| FileNotFoundError
| OSError
| CsvError
| LarkError
| ExpatError
| XMLSyntaxError
| ClickAbort
| ClickUsageError.

(** used by cli.py:62-114 (among others) *)
Inductive result (A : Type) : Type :=
| Ok (a : A)
| Raise (e : exn).
Arguments Ok {A} a.
Arguments Raise {A} e.

(** used by cli.py:81-89 (among others) *)
Definition bind {A B} (r : result A) (k : A -> result B) : result B :=
  match r with
  | Ok a => k a
  | Raise e => Raise e
  end.

Declare Scope py_scope.
Delimit Scope py_scope with py.
Notation "'let*' x := e 'in' k" := (bind e (fun x => k))
  (at level 200, x pattern, e at level 100, k at level 200, right associativity) : py_scope.
Notation "'guard' e 'then*' k" := (bind e (fun _ => k))
  (at level 200, e at level 100, k at level 200, right associativity) : py_scope.
Open Scope py_scope.

(** used by edifact_components.py:133-145 (among others): A check that only raises or does nothing. *)
Definition check (b : bool) (e : exn) : result unit :=
  if b then Ok tt else Raise e.

(** used by models/__init__.py:8-15 (among others) *)
Definition is_ok {A} (r : result A) : bool :=
  match r with Ok _ => true | Raise _ => false end.

(** [f] applied to all elements from left to right; stops at the first raise.
    (A Python list comprehension or a for loop that appends.) *)
Section MapM.
  Context {A B : Type} (f : A -> result B).
  (** used by flat_ahb_reader.py:63-68 (among others) *)
  Fixpoint mapM (l : list A) : result (list B) :=
    match l with
    | [] => Ok []
    | a :: r =>
        let* b := f a in
        let* bs := mapM r in
        Ok (b :: bs)
    end.
End MapM.

(** A loop that runs a check on every element. *)
Section ForEach.
  Context {A : Type} (f : A -> result unit).
  (** used by anwendungshandbuch.py:235-328 (among others) *)
  Fixpoint for_each (l : list A) : result unit :=
    match l with
    | [] => Ok tt
    | a :: r => let* _ := f a in for_each r
    end.
End ForEach.

(** A loop with a loop-carried state. *)
Section FoldM.
  Context {A S : Type} (f : S -> A -> result S).
  (** used by navigation.py:503-545 (among others) *)
  Fixpoint foldM (s : S) (l : list A) : result S :=
    match l with
    | [] => Ok s
    | a :: r => let* s' := f s a in foldM s' r
    end.
End FoldM.

(** used by cli.py:73 (among others) *)
Definition is_none {A} (o : option A) : bool :=
  match o with None => true | Some _ => false end.
(** used by cli.py:73 (among others) *)
Definition is_some {A} (o : option A) : bool := negb (is_none o).

(** used by mig_ahb_matching.py:66, 152: more_itertools.first / last (without default): ValueError on empty input *)
Definition first_of {A} (l : list A) : result A :=
  match l with [] => Raise ValueError | a :: _ => Ok a end.
(** used by mig_ahb_matching.py:153-156, 189 *)
Fixpoint last_of {A} (l : list A) : result A :=
  match l with
  | [] => Raise ValueError
  | [a] => Ok a
  | _ :: r => last_of r
  end.
(** used by mig_xml_reader.py:183-197: more_itertools.one: ValueError unless there is exactly one element *)
Definition one_of {A} (l : list A) : result A :=
  match l with [a] => Ok a | _ => Raise ValueError end.
