(** Shared vocabulary of the models: Python exceptions as values, checked list
    access, monadic loops.  No property of the code is stated here. *)
From Coq Require Import List ZArith Bool.
Import ListNotations.

(** Python exception classes raised (explicitly or by the interpreter) in the
    modelled code.  [UndefinedBehaviour] stands for an unchecked access of the
    compiled (Cython, boundscheck False) code outside of its buffer.
    [OutOfFuel] only exists to make loops total; theorems exclude it. *)
Inductive exn : Set :=
| IndexError | ValueError | ZeroDivisionError | TypeError | KeyError
| AttributeError | RuntimeError | LookupError | ArithmeticError
| NotImplementedError | TimeoutError | UnboundLocalError | OverflowError
| VisaIOError | StructError
| UndefinedBehaviour | OutOfFuel.

Inductive result (A : Type) : Type :=
| Ok (a : A)
| Err (e : exn).
Arguments Ok {A} a.
Arguments Err {A} e.

Definition bind {A B} (r : result A) (f : A -> result B) : result B :=
  match r with Ok a => f a | Err e => Err e end.

Declare Scope result_scope.
Delimit Scope result_scope with result.
Notation "x <- e ;; f" := (bind e (fun x => f))
  (at level 61, e at next level, right associativity) : result_scope.
Notation "' p <- e ;; f" := (bind e (fun p => f))
  (at level 61, p pattern, e at next level, right associativity) : result_scope.

(** [l[i]] for a natural index: IndexError outside of the list. *)
Definition get {A} (l : list A) (i : nat) : result A :=
  match nth_error l i with Some a => Ok a | None => Err IndexError end.

(** [l[i]] for a Python integer index; negative indices count from the end. *)
Definition getz {A} (l : list A) (i : Z) : result A :=
  if (0 <=? i)%Z then get l (Z.to_nat i)
  else if (0 <=? i + Z.of_nat (length l))%Z
       then get l (Z.to_nat (i + Z.of_nat (length l)))
       else Err IndexError.

(** A [for] loop over a sequence whose body may raise. *)
Fixpoint foldM {S X} (f : S -> X -> result S) (s : S) (l : list X) : result S :=
  match l with
  | [] => Ok s
  | x :: l' => match f s x with Ok s' => foldM f s' l' | Err e => Err e end
  end.

(** A [for] loop whose body may [return True]. *)
Fixpoint existsM {X} (f : X -> result bool) (l : list X) : result bool :=
  match l with
  | [] => Ok false
  | x :: l' => match f x with
               | Ok true => Ok true
               | Ok false => existsM f l'
               | Err e => Err e
               end
  end.

Fixpoint mapM {X Y} (f : X -> result Y) (l : list X) : result (list Y) :=
  match l with
  | [] => Ok []
  | x :: l' => match f x with
               | Err e => Err e
               | Ok y => match mapM f l' with
                         | Ok ys => Ok (y :: ys)
                         | Err e => Err e
                         end
               end
  end.

(** Write [l[i] := v] into a fixed-size buffer; [None] when out of range. *)
Fixpoint set_nth {A} (l : list A) (i : nat) (v : A) : option (list A) :=
  match l, i with
  | [], _ => None
  | _ :: l', O => Some (v :: l')
  | x :: l', S i' => match set_nth l' i' v with
                     | Some r => Some (x :: r)
                     | None => None
                     end
  end.

(** [range(lo, hi)] for naturals. *)
Definition range (lo hi : nat) : list nat := seq lo (hi - lo).
