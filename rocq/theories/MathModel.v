(** Model of hardware_tools/math/interpolation.py, math/gaussian.py,
    signal/clock.py and stats.bin_exponential on real numbers.  Where numpy would
    produce nan the model stops with UndefinedBehaviour. *)
From Coq Require Import ZArith Reals Bool List.
Import ListNotations.
From Verif Require Import Base Num StatsModel.
Local Open Scope R_scope.
Local Open Scope result_scope.

(** ndarray.sum, numpy.dot of two vectors *)
Definition rsum (l : list R) : R := fold_left Rplus l 0.
Definition dot (a b : list R) : R := rsum (map (fun p => fst p * snd p) (combine a b)).

(** *** math/interpolation.py *)
(** A numpy array: its shape and its elements in order. *)
Record array := Arr { shape : list Z; elements : list R }.
(** numpy.sinc; at 0 it evaluates sin(t)/t at t = 1e-20 pi, modelled as 1. *)
Definition np_sinc (u : R) : R := if Reqb u 0 then 1 else sin (PI * u) / (PI * u).
(** interpolation.py:7-35; [x] is one-dimensional. *)
Definition sinc (x : list R) (xp yp : array) : result (list R) :=
  if negb (length (shape xp) =? 1)%nat then Err ValueError
  else if negb (if list_eq_dec Z.eq_dec (shape xp) (shape yp) then true else false) then Err ValueError
  else if (hd 0 (shape xp) <? 2)%Z then Err ValueError
  else
    x1 <- get (elements xp) 1 ;;
    x0 <- get (elements xp) 0 ;;
    let period := x1 - x0 in
    if Reqb period 0 then Err UndefinedBehaviour
    else Ok (map (fun t => dot (elements yp) (map (fun p => np_sinc ((t - p) / period)) (elements xp))) x).

(** *** signal/clock.py:9-36; the draws of the random generator are arguments
    ([normal mean stddev n], [uniform low high n], [phase low high]), [n] is
    already an integer. *)
Section Clock.
Variable normal : R -> R -> nat -> list R.
Variable uniform : R -> R -> nat -> list R.
Variable phase : R -> R -> R.
Definition add (a b : list R) : list R := map (fun p => fst p + snd p) (combine a b).
(** e[::2] += d *)
Fixpoint add_even (d : R) (l : list R) : list R :=
  match l with
  | [] => []
  | [a] => [a + d]
  | a :: b :: l' => a + d :: b :: add_even d l'
  end.
Definition edges (t_sym t_rj t_uj t_sj f_sj dcd : R) (n : Z) : result (list R) :=
  if (n <? 0)%Z then Err ValueError
  else
    let e := linspace 0 (t_sym * IZR (n - 1)) (Z.to_nat n) in
    let start := phase 0 (2 * PI) in
    let e := map (fun t => t + sin (2 * PI * f_sj * t + start) * t_sj) e in
    let e := add_even (dcd * t_sym) e in
    if Rltb t_rj 0 then Err ValueError
    else
      let e := add e (normal 0 t_rj (Z.to_nat n)) in
      Ok (add e (uniform (- t_uj / 2) (t_uj / 2) (Z.to_nat n))).
End Clock.

(** *** math/gaussian.py *)
(** A float that may be numpy.PINF. *)
Inductive ext := Fin (x : R) | PInf.
Definition ext_add (a b : ext) : ext := match a, b with Fin x, Fin y => Fin (x + y) | _, _ => PInf end.
Definition ext_lt (a b : ext) : bool :=
  match a, b with Fin x, Fin y => Rltb x y | Fin _, PInf => true | PInf, _ => false end.
(** ndarray.argmin, argmax: the first of the best; an empty array raises. *)
Fixpoint best_from {X} (better : X -> X -> bool) (i : nat) (b : X) (bi : nat) (l : list X) : nat :=
  match l with
  | [] => bi
  | x :: l' => if better x b then best_from better (S i) x i l' else best_from better (S i) b bi l'
  end.
Definition arg_best {X} (better : X -> X -> bool) (l : list X) : result nat :=
  match l with
  | [] => Err ValueError
  | x :: l' => Ok (best_from better 1 x 0 l')
  end.
(** gaussian.py:13-38 *)
Record gaussian := Gaussian { amplitude : R; mean : R; stddev : R }.
(** gaussian.py:132-133 *)
Definition bell (g : gaussian) (x : R) : R :=
  amplitude g * exp (- ((x - mean g) / stddev g) ^ 2 / 2) / sqrt (2 * PI * stddev g ^ 2).
(** gaussian.py:110-133 for a float *)
Definition compute_float (g : gaussian) (x : R) : ext :=
  if Reqb (stddev g) 0 then (if Reqb x (mean g) then PInf else Fin 0)
  else Fin (bell g x).
(** gaussian.py:110-133 for an array *)
Definition compute_array (g : gaussian) (x : list R) : result (list ext) :=
  if Reqb (stddev g) 0 then
    i <- arg_best Rltb (map (fun t => Rabs (t - mean g)) x) ;;
    match set_nth (map (fun _ => Fin 0) x) i PInf with Some y => Ok y | None => Err IndexError end
  else Ok (map (fun t => Fin (bell g t)) x).
(** gaussian.py:74-84; without components the result is the scalar 0 *)
Definition mix_float (components : list gaussian) (x : R) : ext :=
  fold_left (fun s g => ext_add s (compute_float g x)) components (Fin 0).
Definition mix_array (components : list gaussian) (x : list R) : result (list ext) :=
  y <- mapM (fun g => compute_array g x) components ;;
  Ok (fold_left (fun s r => map (fun p => ext_add (fst p) (snd p)) (combine s r)) y (map (fun _ => Fin 0) x)).
(** gaussian.py:86-106 *)
Definition peak (components : list gaussian) (lo hi : R) : result R :=
  let x := linspace lo hi 1000 in
  y <- mix_array components x ;;
  i <- arg_best (fun a b => ext_lt b a) y ;;
  get x i.
Definition center (components : list gaussian) : result R :=
  match components with
  | [g] => Ok (mean g)
  | _ =>
      x_min <- py_min (map mean components) ;;
      x_max <- py_max (map mean components) ;;
      x <- peak components x_min x_max ;;
      peak components (x - (x_max - x_min) / 1000) (x + (x_max - x_min) / 1000)
  end.

(** gaussian.py:136-161; [curve_fit x frequency guess] is scipy's fit of the
    bell curve. *)
Definition fit_pdf (curve_fit : list R -> list R -> gaussian -> result gaussian) (x frequency : list R) : result gaussian :=
  let total := rsum frequency in
  if Reqb total 0 then Err UndefinedBehaviour
  else
    let frequency := map (fun v => v / total) frequency in
    let guess_mean := dot x frequency / rsum frequency in
    let guess_stddev := sqrt (dot (map (fun t => (t - guess_mean) ^ 2) x) frequency / rsum frequency) in
    highest <- py_max frequency ;;
    g <- curve_fit x frequency (Gaussian highest guess_mean guess_stddev) ;;
    Ok (Gaussian (amplitude g * total) (mean g) (stddev g)).

(** gaussian.py:164-205; [fit k y] is sklearn's mixture of k components fitted to
    y, as its weights, means and variances; [aic] its information criterion.
    The random initialisation of sklearn is taken as fixed. *)
Section Fit.
Variable round6 : R -> R.
Variable fit : nat -> list R -> result (list (R * R * R)).
Variable aic : list (R * R * R) -> list R -> R.
(** sorted(key=-amplitude), stable *)
Fixpoint insert_by (g : gaussian) (l : list gaussian) : list gaussian :=
  match l with
  | [] => [g]
  | h :: l' => if Rltb (amplitude h) (amplitude g) then g :: l else h :: insert_by g l'
  end.
Definition by_amplitude (l : list gaussian) : list gaussian := fold_left (fun acc g => insert_by g acc) l [].
(** len(numpy.unique(...)) *)
Definition unique_count (l : list R) : nat := length (nodup Req_EM_T l).
Definition fit_mix_samples (y : list R) (n_max : nat) : result (list gaussian) :=
  y_max <- py_max y ;;
  y_min <- py_min y ;;
  let y_span := y_max - y_min in
  if Reqb y_span 0 then y0 <- get y 0 ;; Ok [Gaussian 1 y0 0]
  else
    let y_avg := rsum y / INR (length y) in
    let y_norm := map (fun v => (v - y_avg) / y_span) y in
    let n_max := Nat.min n_max (unique_count (map round6 y_norm)) in
    models <- mapM (fun i => fit (i + 1) y_norm) (seq 0 n_max) ;;
    best <- arg_best Rltb (map (fun m => aic m y_norm) models) ;;
    m_best <- get models best ;;
    Ok (by_amplitude (map (fun c => let '(w, m, v) := c in Gaussian w (m * y_span + y_avg) (Rabs (sqrt v * y_span))) m_best)).
End Fit.

(** gaussian.py:208-242 *)
Definition sample_error (erfc : R -> R) (n : nat) (threshold : R) : R := erfc (threshold * sqrt (INR n)).
Definition sample_error_inv (erfcinv : R -> R) (n : nat) (p_fail : R) : R := erfcinv p_fail / sqrt (INR n).

(** *** math/stats.py:107-139 bin_exponential *)
(** numpy.log10; None is -inf *)
Definition log10 (x : R) : result (option R) :=
  if Rltb x 0 then Err UndefinedBehaviour
  else Ok (if Reqb x 0 then None else Some (ln x / ln 10)).
Definition below (a b : option R) : bool :=
  match a, b with None, None => false | None, Some _ => true | Some _, None => false | Some x, Some y => Rltb x y end.
Definition at_most (a b : option R) : bool :=
  match a, b with None, _ => true | Some _, None => false | Some x, Some y => Rleb x y end.
(** numpy.ceil *)
Definition ceil (x : R) : Z := (- Int_part (- x))%Z.
(** numpy.histogram as in StatsModel.v, with -inf among samples and edges *)
Definition count_below (y : list (option R)) (closed : bool) (e : option R) : Z :=
  Z.of_nat (length (filter (fun x => if closed then at_most x e else below x e) y)).
Fixpoint cumulative_exp (y edges : list (option R)) : list Z :=
  match edges with
  | [] => []
  | [e] => [count_below y true e]
  | e :: l => count_below y false e :: cumulative_exp y l
  end.
Fixpoint nondecreasing (edges : list (option R)) : bool :=
  match edges with
  | a :: ((b :: _) as l) => negb (below b a) && nondecreasing l
  | _ => true
  end.
Definition histogram_exp (y edges : list (option R)) : result (list Z) :=
  if nondecreasing edges then Ok (differences (cumulative_exp y edges)) else Err ValueError.
Definition finite (y : list (option R)) : list R := flat_map (fun v => match v with Some x => [x] | None => [] end) y.
(** stats.py:121-139, counts and edges before the density is formed *)
Definition bin_exponential (y : list R) (bin_count : nat) : result (list Z * list (option R)) :=
  y_exp <- mapM log10 y ;;
  match y_exp with
  | [] => Err ValueError
  | _ =>
      if existsb (fun v => match v with None => true | _ => false end) y_exp then
        y_max <- (match finite y_exp with [] => Ok 0%Z | l => m <- py_max l ;; Ok (ceil m) end) ;;
        let bins := map (fun i => IZR (y_max - (Z.of_nat bin_count - 1) + Z.of_nat i)) (seq 0 bin_count) in
        let edges := None :: map Some bins in
        counts <- histogram_exp y_exp edges ;;
        Ok (counts, edges)
      else
        y_min <- py_min (finite y_exp) ;;
        y_max <- py_max (finite y_exp) ;;
        let edges := map Some (linspace y_min y_max (bin_count + 1)) in
        counts <- histogram_exp y_exp edges ;;
        Ok (counts, edges)
  end.
(** density True: stats.py:134-135; numpy.histogram(density=True) *)
Fixpoint steps (edges : list (option R)) : list R :=
  match edges with
  | Some a :: ((Some b :: _) as l) => (b - a) :: steps l
  | _ => []
  end.
Definition bin_exponential_density (y : list R) (bin_count : nat) : result (list R * list (option R)) :=
  r <- bin_exponential y bin_count ;;
  let '(counts, edges) := r in
  let total := IZR (fold_left Z.add counts 0%Z) in
  if Reqb total 0 then Err UndefinedBehaviour
  else
    match edges with
    | None :: _ => Ok (map (fun c => IZR c / 1 / total) counts, edges)
    | _ =>
        d <- mapM (fun p => if Reqb (snd p) 0 then Err UndefinedBehaviour else Ok (IZR (fst p) / snd p / total)) (combine counts (steps edges)) ;;
        Ok (d, edges)
    end.
