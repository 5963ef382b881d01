(** Model of hardware_tools/math/stats.py: histograms, downsampling and
    UncertainValue. *)
From Coq Require Import List ZArith Bool Reals.
Import ListNotations.
From Verif Require Import Base Num.
Local Open Scope num_scope.
Local Open Scope result_scope.

Section Hist.
Context {A : Type} `{Num A}.

(** math/stats.py:77-81 (and 97-101) -- one iteration: counts[e] += 1 on a
    dictionary in insertion order. *)
Fixpoint dict_incr (counts : list (A * Z)) (e : A) : list (A * Z) :=
  match counts with
  | [] => [(e, 1%Z)]
  | (k, c) :: counts' =>
      if k =. e then (k, (c + 1)%Z) :: counts' else (k, c) :: dict_incr counts' e
  end.

(** Dictionary lookup. *)
Fixpoint dict_get (counts : list (A * Z)) (e : A) : result Z :=
  match counts with
  | [] => Err KeyError
  | (k, c) :: counts' => if k =. e then Ok c else dict_get counts' e
  end.

(** Python's [sorted] (contract: the stable sorted permutation). *)
Fixpoint insert (x : A) (l : list A) : list A :=
  match l with
  | [] => [x]
  | y :: l' => if x <. y then x :: l else y :: insert x l'
  end.
Definition sorted (l : list A) : list A := fold_left (fun acc x => insert x acc) l [].

(** math/stats.py:67-84 [bin_exact]; bin_exact_np (87-104) only converts the
    two lists to arrays. *)
Definition bin_exact (y : list A) : result (list Z * list A) :=
  let counts := fold_left dict_incr y [] in
  let bins := sorted (map fst counts) in
  cs <- mapM (dict_get counts) bins ;;
  Ok (cs, bins).

(** numpy.linspace(start, stop, num): arange * step + start, last := stop. *)
Definition linspace (start stop : A) (num : nat) : list A :=
  match num with
  | O => []
  | S O => [start]
  | S (S k) =>
      let step := (stop -. start) /. nofZ (Z.of_nat (S k)) in
      map (fun i => nofZ (Z.of_nat i) *. step +. start) (seq 0 (S k)) ++ [stop]
  end.

(** Number of samples satisfying a test. *)
Definition count_if (f : A -> bool) (y : list A) : Z := Z.of_nat (length (filter f y)).

(** numpy.histogram with explicit edges: monotonicity check, then differences
    of the cumulative counts searchsorted(edges[:-1], 'left') followed by
    searchsorted(edges[-1], 'right'). *)
Fixpoint edges_ok (edges : list A) : bool :=
  match edges with
  | a :: ((b :: _) as l) => negb (b <. a) && edges_ok l
  | _ => true
  end.
Fixpoint cumulative (y edges : list A) : list Z :=
  match edges with
  | [] => []
  | [e] => [count_if (fun x => x <=. e) y]
  | e :: l => count_if (fun x => x <. e) y :: cumulative y l
  end.
Fixpoint differences (l : list Z) : list Z :=
  match l with
  | a :: ((b :: _) as l') => (b - a)%Z :: differences l'
  | _ => []
  end.
Definition histogram (y edges : list A) : result (list Z) :=
  if edges_ok edges then Ok (differences (cumulative y edges)) else Err ValueError.

(** math/stats.py:53-62 -- the range of the bins; [frac] is the literal 0.05. *)
Definition linear_range (frac : A) (y : list A) : result (A * A) :=
  y_min <- py_min y ;;
  y_max <- py_max y ;;
  if y_min =. y_max then
    if y_min =. nofZ 0 then Ok (nofZ (-1), nofZ 1)
    else
      let center := y_min in
      let abs_c := if center <. nofZ 0 then nofZ 0 -. center else center in
      Ok (center -. abs_c *. frac, center +. abs_c *. frac)
  else Ok (y_min, y_max).

(** math/stats.py:40-64 [bin_linear] with density None or False. *)
Definition bin_linear (frac : A) (y : list A) (bin_count : nat) : result (list Z * list A) :=
  r <- linear_range frac y ;;
  let edges := linspace (fst r) (snd r) (bin_count + 1) in
  counts <- histogram y edges ;;
  Ok (counts, edges).

(** numpy.histogram(density=True): counts / bin widths / total. *)
Fixpoint widths (edges : list A) : list A :=
  match edges with
  | a :: ((b :: _) as l) => (b -. a) :: widths l
  | _ => []
  end.
Definition densities (counts : list Z) (edges : list A) : list A :=
  let total := nofZ (fold_left Z.add counts 0%Z) in
  map (fun cw => nofZ (fst cw) /. snd cw /. total) (combine counts (widths edges)).
(** math/stats.py:40-64 [bin_linear] with density True. *)
Definition bin_linear_density (frac : A) (y : list A) (bin_count : nat) : result (list A * list A) :=
  r <- bin_linear frac y bin_count ;;
  Ok (densities (fst r) (snd r), snd r).

(** Bin centres, math/stats.py:163. *)
Fixpoint centres (edges : list A) : list A :=
  match edges with
  | a :: ((b :: _) as l) => ((a +. b) /. nofZ 2) :: centres l
  | _ => []
  end.

(** math/stats.py:166-170 -- replicate each bin floor(count * scale) times. *)
Definition replicate_bins (floor : A -> Z) (scale : A) (counts : list Z) (bins : list A) : list A :=
  flat_map (fun cb => repeat (snd cb) (Z.to_nat (floor (nofZ (fst cb) *. scale)))) (combine counts bins).

(** math/stats.py:142-170 [downsample]; [bin_count] None is exact binning. *)
Definition downsample (floor : A -> Z) (frac : A) (y : list A) (n_max : A) (bin_count : option nat)
  : result (list A) :=
  scale <- py_div n_max (nofZ (Z.of_nat (length y))) ;;
  if scale >=. nofZ 1 then Ok y
  else
    match bin_count with
    | Some n =>
        r <- bin_linear frac y n ;;
        Ok (replicate_bins floor scale (fst r) (centres (snd r)))
    | None =>
        r <- bin_exact y ;;
        Ok (replicate_bins floor scale (fst r) (snd r))
    end.

End Hist.

(** ** UncertainValue over the reals *)
Section Uncertain.
Local Open Scope R_scope.

(** math/stats.py:173-183. *)
Record uvalue := UV { value : R; stddev : R }.

(** The right operand of an operator: another UncertainValue or a number. *)
Inductive operand := OU (b : uvalue) | ON (b : R).
Definition oval (b : operand) : R := match b with OU u => value u | ON x => x end.

(** math/stats.py:214-221 __add__. *)
Definition uadd (a : uvalue) (b : operand) : uvalue :=
  match b with
  | OU b => UV (value a + value b) (sqrt (stddev a ^ 2 + stddev b ^ 2))
  | ON b => UV (value a + b) (stddev a)
  end.
(** math/stats.py:223-230 __sub__. *)
Definition usub (a : uvalue) (b : operand) : uvalue :=
  match b with
  | OU b => UV (value a - value b) (sqrt (stddev a ^ 2 + stddev b ^ 2))
  | ON b => UV (value a - b) (stddev a)
  end.
(** math/stats.py:232-240 __mul__; the quotients by a zero value are left to
    the totality of Rdiv (numpy gives inf or NaN), theorems assume nonzero. *)
Definition umul (a : uvalue) (b : operand) : uvalue :=
  match b with
  | OU b => let v := value a * value b in
            UV v (Rabs v * sqrt ((stddev a / value a) ^ 2 + (stddev b / value b) ^ 2))
  | ON b => UV (value a * b) (stddev a * Rabs b)
  end.
(** math/stats.py:242-250 __truediv__. *)
Definition udiv (a : uvalue) (b : operand) : uvalue :=
  match b with
  | OU b => let v := value a / value b in
            UV v (Rabs v * sqrt ((stddev a / value a) ^ 2 + (stddev b / value b) ^ 2))
  | ON b => UV (value a / b) (stddev a / Rabs b)
  end.

(** math/stats.py:252-286 comparison operators. *)
Definition ult (a : uvalue) (b : operand) : bool := Rltb (value a) (oval b).
Definition ule (a : uvalue) (b : operand) : bool := Rleb (value a) (oval b).
Definition ueq (a : uvalue) (b : operand) : bool := Reqb (value a) (oval b).
Definition une (a : uvalue) (b : operand) : bool := negb (Reqb (value a) (oval b)).
Definition uge (a : uvalue) (b : operand) : bool := Rleb (oval b) (value a).
Definition ugt (a : uvalue) (b : operand) : bool := Rltb (oval b) (value a).

(** math/stats.py:288-300 log, log10; None is the (NaN, NaN) value. *)
Definition ulog (a : uvalue) : option uvalue :=
  if Rleb (value a) 0 then None else Some (UV (ln (value a)) (Rabs (stddev a / value a))).
Definition ulog10 (a : uvalue) : option uvalue :=
  if Rleb (value a) 0 then None
  else Some (UV (ln (value a) / ln 10) (Rabs (stddev a / (value a * ln 10)))).

Definition rsum (l : list R) : R := fold_right Rplus 0 l.

(** math/stats.py:186-199 samples; None is the (NaN, NaN) value. *)
Definition usamples (x : list R) : option uvalue :=
  match x with
  | [] => None
  | _ => let n := INR (length x) in
         let m := rsum x / n in
         let c := map (fun e => e - m) x in
         Some (UV m (sqrt (rsum (map (fun e => e * e) c) / n)))
  end.
End Uncertain.
