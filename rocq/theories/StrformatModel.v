(** Model of hardware_tools/strformat.py. *)
From Coq Require Import String ZArith Bool QArith List.
Import ListNotations.
From Verif Require Import Base PyStr.
Local Open Scope Z_scope.
Local Open Scope result_scope.

(** A Python float; a finite one is represented by its exact rational value. *)
Inductive pyfloat := Fin (q : Q) | PInf | NInf | NaN.

(** f"{value:w.pf}". *)
Definition fmt_f (w p : nat) (value : pyfloat) : pystr :=
  lpad w 32 match value with
            | Fin q => fixed p q
            | PInf => str "inf"
            | NInf => str "-inf"
            | NaN => str "nan"
            end.

(** value / f of two finite floats: exact quotient, then rounding. *)
Definition fdiv (rnd : Q -> Q) (v f : Q) : result Q :=
  if Qnum f =? 0 then Err ZeroDivisionError else Ok (rnd (v / f)%Q).

(** strformat.py:49-51 -- the first prefix whose threshold is met. *)
Fixpoint pick (rnd : Q -> Q) (value threshold : Q) (prefixes : list (pystr * Q)) : option (pystr * Q) :=
  match prefixes with
  | [] => None
  | (p, f) :: l => if Qle_bool (rnd (threshold * f)%Q) (Qabs' value) then Some (p, f)
                   else pick rnd value threshold l
  end.

(** strformat.py:13-53 [metric_prefix]; the specifiers "w.pf" are given as
    (w, p); [rnd] is the rounding of float arithmetic. *)
Definition metric_prefix (rnd : Q -> Q) (value : pyfloat) (unit : pystr)
    (specifier specifier_small : nat * nat) (threshold : Q) (prefixes : list (pystr * Q)) : result pystr :=
  match value with
  | Fin v =>
      match pick rnd v threshold prefixes with
      | Some (p, f) =>
          m <- fdiv rnd v f ;;
          Ok (fmt_f (fst specifier) (snd specifier) (Fin m) ++ [32] ++ p ++ unit)
      | None =>
          '(p, f) <- getz prefixes (-1) ;;
          m <- fdiv rnd v f ;;
          Ok (fmt_f (fst specifier_small) (snd specifier_small) (Fin m) ++ [32] ++ p ++ unit)
      end
  | _ => Ok (fmt_f (fst specifier) (snd specifier) value ++ [32; 32] ++ unit)
  end.

(** strformat.py:38-48 -- names and decimal exponents of the default table. *)
Definition default_prefixes : list (pystr * Z) :=
  [(str "T", 12); (str "G", 9); (str "M", 6); (str "k", 3); (str " ", 0); (str "m", -3);
   ([181], -6); (str "n", -9); (str "p", -12)].

(** divmod(q, 60) of exact numbers (Python floors). *)
Definition divmod60 (q : Q) : Z * Q :=
  let d := Qnum q / (60 * Zpos (Qden q)) in
  (d, Qmake (Qnum q - d * 60 * Zpos (Qden q)) (Qden q)).

(** strformat.py:56-78 [time_str].  The duration is exact: for nonnegative
    float durations below 2^53 Python's divmod is exact too. *)
Definition time_str (duration : Q) (sub hours : bool) : pystr :=
  let (minutes, seconds) := divmod60 duration in
  let '(buf, minutes) :=
    if hours then (zpad 2 (str_int (minutes / 60)) ++ [58], minutes mod 60) else ([], minutes) in
  buf ++ zpad 2 (str_int minutes) ++ [58] ++
  (if sub then zpad 5 (fixed 2 seconds)
   else zpad 2 (str_int (Qnum seconds / Zpos (Qden seconds)))).

(** strformat.py:81-106 [elapsed_str]: the type of [start] selects the clock. *)
Inductive stamp := Datetime (t : Q) | Float (t : Q) | OtherType.
Definition elapsed_str (start : stamp) (end_ : option Q) (now_datetime now_perf : Q) (sub hours : bool) : result pystr :=
  match start with
  | Datetime t => Ok (time_str (match end_ with Some e => e | None => now_datetime end - t)%Q sub hours)
  | Float t => Ok (time_str (match end_ with Some e => e | None => now_perf end - t)%Q sub hours)
  | OtherType => Err TypeError
  end.
