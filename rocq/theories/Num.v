(** Arithmetic as a parameter.

    Models that only compare and combine samples are written against this
    record, so that their theorems hold for any instance: exact rationals,
    reals, or IEEE-754 binary64 (with NaN, infinities and rounding). *)
From Coq Require Import ZArith Bool QArith Reals.
From Coq Require Import Floats.SpecFloat.
From Verif Require Import Base.

Class Num (A : Type) := {
  nadd : A -> A -> A;
  nsub : A -> A -> A;
  nmul : A -> A -> A;
  ndiv : A -> A -> A;
  nlt  : A -> A -> bool;
  nle  : A -> A -> bool;
  neq  : A -> A -> bool;
  nofZ : Z -> A;
  nhalf : A
}.

Declare Scope num_scope.
Delimit Scope num_scope with num.
Notation "x +. y" := (nadd x y) (at level 50, left associativity) : num_scope.
Notation "x -. y" := (nsub x y) (at level 50, left associativity) : num_scope.
Notation "x *. y" := (nmul x y) (at level 40, left associativity) : num_scope.
Notation "x /. y" := (ndiv x y) (at level 40, left associativity) : num_scope.
Notation "x <. y" := (nlt x y) (at level 70) : num_scope.
Notation "x <=. y" := (nle x y) (at level 70) : num_scope.
Notation "x =. y" := (neq x y) (at level 70) : num_scope.
(** Python's [a > b] and [a >= b] are the mirrored comparisons for floats. *)
Notation "x >. y" := (nlt y x) (at level 70, only parsing) : num_scope.
Notation "x >=. y" := (nle y x) (at level 70, only parsing) : num_scope.

(** Division of two Python floats: a zero divisor raises. *)
Definition py_div {A} `{Num A} (x y : A) : result A :=
  if neq y (nofZ 0) then Err ZeroDivisionError else Ok (ndiv x y).

(** Python's [min]/[max] of a sequence: keep the first, replace on strict
    improvement; an empty sequence raises ValueError. *)
Definition py_min {A} `{Num A} (l : list A) : result A :=
  match l with
  | nil => Err ValueError
  | cons x l' => Ok (List.fold_left (fun m y => if nlt y m then y else m) l' x)
  end.
Definition py_max {A} `{Num A} (l : list A) : result A :=
  match l with
  | nil => Err ValueError
  | cons x l' => Ok (List.fold_left (fun m y => if nlt m y then y else m) l' x)
  end.

(** Exact rationals: executable. *)
Definition Qltb (x y : Q) : bool := (Qnum x * QDen y <? Qnum y * QDen x)%Z.
Global Instance NumQ : Num Q := {|
  nadd x y := Qred (x + y);
  nsub x y := Qred (x - y);
  nmul x y := Qred (x * y);
  ndiv x y := Qred (x / y);
  nlt := Qltb;
  nle := Qle_bool;
  neq := Qeq_bool;
  nofZ := inject_Z;
  nhalf := 1 # 2
|}.

(** Reals: used for algebraic theorems. *)
Definition Rltb (x y : R) : bool := if Rlt_dec x y then true else false.
Definition Rleb (x y : R) : bool := if Rle_dec x y then true else false.
Definition Reqb (x y : R) : bool := if Req_EM_T x y then true else false.
Global Instance NumR : Num R := {|
  nadd := Rplus;
  nsub := Rminus;
  nmul := Rmult;
  ndiv := Rdiv;
  nlt := Rltb;
  nle := Rleb;
  neq := Reqb;
  nofZ := IZR;
  nhalf := (/ 2)%R
|}.

(** IEEE-754 binary64 with round-to-nearest-even, as specified by the
    standard library's [SpecFloat] (one NaN). *)
Definition prec64 : Z := 53.
Definition emax64 : Z := 1024.
Definition f64 := spec_float.
Definition f64_ofZ (z : Z) : f64 := binary_normalize prec64 emax64 z 0 false.
(** The double nearest to m * 2^e. *)
Definition f64_dyadic (m e : Z) : f64 := binary_normalize prec64 emax64 m e false.
(** The double nearest to the decimal fraction n / d. *)
Definition f64_frac (n d : Z) : f64 := SFdiv prec64 emax64 (f64_ofZ n) (f64_ofZ d).
Global Instance NumF64 : Num f64 := {|
  nadd := SFadd prec64 emax64;
  nsub := SFsub prec64 emax64;
  nmul := SFmul prec64 emax64;
  ndiv := SFdiv prec64 emax64;
  nlt := SFltb;
  nle := SFleb;
  neq := SFeqb;
  nofZ := f64_ofZ;
  nhalf := f64_dyadic 1 (-1)
|}.

(** Conversion of a double to single precision and back (the C type [float]
    of the Cython signatures). *)
Definition f32_round (x : f64) : f64 :=
  match x with
  | S754_finite s m e =>
      match binary_normalize 24 128 (if s then Z.neg m else Z.pos m) e s with
      | S754_finite s' m' e' =>
          binary_normalize prec64 emax64 (if s' then Z.neg m' else Z.pos m') e' s'
      | y => y
      end
  | y => y
  end.
