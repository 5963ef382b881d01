(** Python strings as lists of code points and the number formatting and
    parsing primitives of the interpreter used by the models.  These are
    contracts of the Python runtime, not code of the repository. *)
From Coq Require Import String Ascii ZArith Bool QArith List.
Import ListNotations.
Local Open Scope Z_scope.

Definition pystr := list Z.

(** A literal. *)
Fixpoint str (s : string) : pystr :=
  match s with
  | EmptyString => []
  | String c s' => Z.of_N (N_of_ascii c) :: str s'
  end.

(** Character classes. *)
Definition is_digit (c : Z) : bool := (48 <=? c) && (c <=? 57).
Definition is_space (c : Z) : bool := (c =? 32) || ((9 <=? c) && (c <=? 13)).
(** str.upper on ASCII letters; other characters are left alone
    (simplification for non-ASCII text). *)
Definition upper_char (c : Z) : Z := if (97 <=? c) && (c <=? 122) then c - 32 else c.
Definition upper (s : pystr) : pystr := map upper_char s.
Definition lower_char (c : Z) : Z := if (65 <=? c) && (c <=? 90) then c + 32 else c.
Definition lower (s : pystr) : pystr := map lower_char s.

Fixpoint str_eqb (a b : pystr) : bool :=
  match a, b with
  | [], [] => true
  | x :: a', y :: b' => (x =? y) && str_eqb a' b'
  | _, _ => false
  end.

Fixpoint lstrip (s : pystr) : pystr :=
  match s with
  | c :: s' => if is_space c then lstrip s' else s
  | [] => []
  end.
Definition rstrip (s : pystr) : pystr := rev (lstrip (rev s)).
Definition strip (s : pystr) : pystr := rstrip (lstrip s).

(** s.startswith(p). *)
Fixpoint startswith (p s : pystr) : bool :=
  match p, s with
  | [], _ => true
  | x :: p', y :: s' => (x =? y) && startswith p' s'
  | _, _ => false
  end.

(** Decimal digits of a natural number, most significant first. *)
Fixpoint digits_fuel (fuel : nat) (n : Z) (acc : list Z) : list Z :=
  match fuel with
  | O => n :: acc
  | S f => if n <? 10 then n :: acc else digits_fuel f (n / 10) ((n mod 10) :: acc)
  end.
Definition digits (n : Z) : list Z := digits_fuel (Z.to_nat (Z.log2 n)) n [].
Definition dchars (ds : list Z) : pystr := map (fun d => 48 + d) ds.

(** str(n) for an integer. *)
Definition str_int (n : Z) : pystr :=
  if n <? 0 then 45 :: dchars (digits (- n)) else dchars (digits n).

(** Fill on the left up to a width; with sign-aware zero padding. *)
Definition lpad (w : nat) (c : Z) (s : pystr) : pystr := repeat c (w - length s) ++ s.
Definition zpad (w : nat) (s : pystr) : pystr :=
  match s with
  | 45 :: s' => 45 :: lpad (w - 1) 48 s'
  | _ => lpad w 48 s
  end.

(** Round half to even, the rounding of float formatting (exact decimal
    expansion of the binary value). *)
Definition round_half_even (q : Q) : Z :=
  let n := Qnum q in let d := Zpos (Qden q) in
  let f := n / d in
  let r := 2 * (n mod d) in
  if r <? d then f else if d <? r then f + 1 else if Z.even f then f else f + 1.

Definition pow10 (k : nat) : Z := 10 ^ Z.of_nat k.
Definition Qneg (q : Q) : bool := Qnum q <? 0.
Definition Qabs' (q : Q) : Q := Qmake (Z.abs (Qnum q)) (Qden q).

(** f"{q:.pf}" for a finite number; the sign is kept when the digits round to
    zero.  (The sign of a negative zero is not represented.) *)
Definition fixed (p : nat) (q : Q) : pystr :=
  let n := round_half_even (Qabs' q * inject_Z (pow10 p)) in
  (if Qneg q then [45] else []) ++ dchars (digits (n / pow10 p)) ++
  match p with
  | O => []
  | S _ => 46 :: lpad p 48 (dchars (digits (n mod pow10 p)))
  end.

(** ** Reading numbers *)
Definition value10 (ds : list Z) : Z := fold_left (fun a d => 10 * a + d) ds 0.

Fixpoint span_digits (s : pystr) : list Z * pystr :=
  match s with
  | c :: s' => if is_digit c then let (ds, r) := span_digits s' in (c - 48 :: ds, r) else ([], s)
  | [] => ([], [])
  end.

(** int(s) for optional sign and digits (underscores and non-ASCII digits are
    not modelled); None is ValueError. *)
Definition parse_nat (s : pystr) : option Z :=
  match span_digits s with
  | ([], _) => None
  | (ds, []) => Some (value10 ds)
  | _ => None
  end.
Definition parse_int (s : pystr) : option Z :=
  match strip s with
  | 45 :: s' => option_map Z.opp (parse_nat s')
  | 43 :: s' => parse_nat s'
  | s' => parse_nat s'
  end.

Definition Qpow10 (e : Z) : Q :=
  if 0 <=? e then inject_Z (10 ^ e) else (1 # Z.to_pos (10 ^ (- e))).

(** An exponent suffix; absent means 0. *)
Definition parse_exp (s : pystr) : option Z :=
  match s with
  | [] => Some 0
  | c :: s' => if (c =? 69) || (c =? 101) then
                 match s' with
                 | 45 :: s'' => option_map Z.opp (parse_nat s'')
                 | 43 :: s'' => parse_nat s''
                 | _ => parse_nat s'
                 end
               else None
  end.

(** Unsigned decimal: digits [. digits] [E exponent]. *)
Definition parse_udec (s : pystr) : option Q :=
  let (ip, r) := span_digits s in
  let (fp, r') := match r with
                  | 46 :: r1 => span_digits r1
                  | _ => ([], r)
                  end in
  match ip ++ fp with
  | [] => None
  | ds => match parse_exp r' with
          | Some e => Some (inject_Z (value10 ds) * Qpow10 (e - Z.of_nat (length fp)))%Q
          | None => None
          end
  end.
(** float(s) before rounding to binary; None is ValueError (the texts inf and
    nan and underscores are not modelled). *)
Definition parse_dec (s : pystr) : option Q :=
  match strip s with
  | 45 :: s' => option_map Qopp (parse_udec s')
  | 43 :: s' => parse_udec s'
  | s' => parse_udec s'
  end.

(** f"{q:.pE}": one digit, point, p digits, sign and at least two digits of
    exponent.  The decimal exponent of a nonzero number is found by search. *)
Fixpoint find_up (fuel : nat) (q : Q) (e : Z) : Z :=
  match fuel with
  | O => e
  | S f => if Qle_bool (Qpow10 (e + 1)) q then find_up f q (e + 1) else e
  end.
Fixpoint find_down (fuel : nat) (q : Q) (e : Z) : Z :=
  match fuel with
  | O => e
  | S f => if Qle_bool (Qpow10 e) q then e else find_down f q (e - 1)
  end.
Definition exp10 (q : Q) : Z :=
  if Qle_bool 1 q then find_up (Z.to_nat (Z.log2 (Qnum q)) + 1) q 0
  else find_down (Z.to_nat (Z.log2 (Zpos (Qden q))) + 2) q 0.
Definition sci_parts (p : nat) (a : Q) : Z * Z :=
  if Qnum a =? 0 then (0, 0)
  else
    let e := exp10 a in
    let m := round_half_even (a * Qpow10 (Z.of_nat p - e)) in
    if m =? 10 * pow10 p then (pow10 p, e + 1) else (m, e).
Definition sci (p : nat) (q : Q) : pystr :=
  let (m, e) := sci_parts p (Qabs' q) in
  (if Qneg q then [45] else []) ++ dchars (digits (m / pow10 p)) ++
  match p with
  | O => []
  | S _ => 46 :: lpad p 48 (dchars (digits (m mod pow10 p)))
  end ++
  69 :: (if e <? 0 then 45 else 43) :: lpad 2 48 (dchars (digits (Z.abs e))).

Example ex_fixed : fixed 2 (-(12345 # 1000)) = str "-12.34". Proof. reflexivity. Qed.
Example ex_fixed2 : fixed 2 (5999501 # 100000) = str "60.00". Proof. reflexivity. Qed.
Example ex_sci : sci 6 (-(15 # 10000)) = str "-1.500000E-03". Proof. reflexivity. Qed.
Example ex_sci2 : sci 6 (99999999 # 1) = str "1.000000E+08". Proof. reflexivity. Qed.
Example ex_parse : parse_dec (str "-1.500000E-03") = Some (-(1500000 # 1000000000))%Q. Proof. reflexivity. Qed.
