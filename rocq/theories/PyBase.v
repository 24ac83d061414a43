(** Exceptions as values, and a few list functions used everywhere. *)
From Coq Require Export String Ascii List Bool Arith ZArith NArith Lia.
Export ListNotations.
Open Scope list_scope.
Open Scope string_scope.
Open Scope bool_scope.

(** List append; [++] is string append throughout. *)
Infix "+++" := (@app _) (right associativity, at level 60).

(** The exception classes the modelled code can raise, with their message where
    the code builds one.  [SyntaxError] is Python's (rule_delimited.py line 145),
    [DotEnvSyntaxError] is helpers/dotenv.py lines 9-10. *)
Inductive exn : Set :=
| ValueError (m : string)
| KeyError (m : string)
| AttributeError (m : string)
| TypeError (m : string)
| IndexError (m : string)
| OverflowError (m : string)
| NameError (m : string)
| SyntaxError (m : string)
| DotEnvSyntaxError (m : string)
| DriverError (m : string).

(** The result of running Python code: a value or a raised exception. *)
Inductive res (A : Type) : Type :=
| Ok (a : A)
| Raise (e : exn).
Arguments Ok {A} a.
Arguments Raise {A} e.

Definition bind {A B} (x : res A) (f : A -> res B) : res B :=
  match x with Ok a => f a | Raise e => Raise e end.

Notation "'let*' x ':=' e 'in' k" := (bind e (fun x => k))
  (at level 200, x pattern, e at level 100, k at level 200, only parsing).

Definition rmap {A B} (f : A -> B) (x : res A) : res B :=
  match x with Ok a => Ok (f a) | Raise e => Raise e end.

Definition is_ok {A} (x : res A) : bool :=
  match x with Ok _ => true | Raise _ => false end.

(** A [for] loop whose body may raise. *)
Fixpoint mapM {A B} (f : A -> res B) (l : list A) : res (list B) :=
  match l with
  | [] => Ok []
  | a :: l' => let* b := f a in let* bs := mapM f l' in Ok (b :: bs)
  end.

Fixpoint foldM {A S} (f : S -> A -> res S) (l : list A) (s : S) : res S :=
  match l with
  | [] => Ok s
  | a :: l' => let* s' := f s a in foldM f l' s'
  end.

(** Filtering with a test that may raise. *)
Fixpoint filterM {A} (f : A -> res bool) (l : list A) : res (list A) :=
  match l with
  | [] => Ok []
  | a :: l' =>
      let* b := f a in
      let* r := filterM f l' in
      Ok (if b then a :: r else r)
  end.

Definition list_is_nil {A} (l : list A) : bool :=
  match l with [] => true | _ => false end.

Definition opt_is_none {A} (o : option A) : bool :=
  match o with None => true | Some _ => false end.

Definition opt_eqb {A} (eqb : A -> A -> bool) (x y : option A) : bool :=
  match x, y with
  | None, None => true
  | Some a, Some b => eqb a b
  | _, _ => false
  end.

Fixpoint list_eqb {A} (eqb : A -> A -> bool) (x y : list A) : bool :=
  match x, y with
  | [], [] => true
  | a :: x', b :: y' => eqb a b && list_eqb eqb x' y'
  | _, _ => false
  end.

(** Python's [x in l] for a list or set of strings. *)
Definition smem (x : string) (l : list string) : bool :=
  existsb (String.eqb x) l.
