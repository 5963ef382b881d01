(** Model of clock data recovery: hardware_tools/measurement/eyediagram/cdr.py,
    _cdr_fb.py (fallback) and _cdr.pyx (compiled).  Numbers are a [Num]
    instance; where numpy would produce inf or nan (a zero divisor) the model
    stops with UndefinedBehaviour. *)
From Coq Require Import ZArith Reals Bool List.
Import ListNotations.
From Verif Require Import Base Num StatsModel.
Local Open Scope num_scope.
Local Open Scope result_scope.

Section Cdr.
Context {A : Type} `{Num A}.
(** numpy.floor *)
Variable floor : A -> Z.
(** Sorting of (period, score) pairs by score: sorted(key=...), argsort. *)
Variable sort : list (A * A) -> list (A * A).
(** n_comp, 1000000 in the code: _cdr_fb.py:64, _cdr.pyx:88. *)
Variable n_comp : Z.

(** numpy.abs *)
Definition nabs (x : A) : A := if x <. nofZ 0 then nofZ 0 -. x else x.
(** Division, numpy.floor_divide, numpy.mod (also of divmod). *)
Definition np_div (x y : A) : result A := if y =. nofZ 0 then Err UndefinedBehaviour else Ok (x /. y).
Definition floor_div (x y : A) : result Z := q <- np_div x y ;; Ok (floor q).
Definition fmod (x y : A) : result A := q <- floor_div x y ;; Ok (x -. nofZ q *. y).
(** numpy.diff *)
Fixpoint diff (l : list A) : list A :=
  match l with
  | a :: ((b :: _) as l') => (b -. a) :: diff l'
  | _ => []
  end.
(** ndarray.sum (in order), ndarray.mean of a nonempty array. *)
Definition nsum (l : list A) : A := fold_left nadd l (nofZ 0).
Definition mean (l : list A) : A := nsum l /. nofZ (Z.of_nat (length l)).
(** _cdr_fb.py:25-26, 151-152; _cdr.pyx:54-55, 197-198: numpy.cov(x, y, bias=1) *)
Definition slope (x y : list A) : result A :=
  let mx := mean x in
  let my := mean y in
  let ssxm := mean (map (fun a => (a -. mx) *. (a -. mx)) x) in
  let ssxym := mean (map (fun p => (fst p -. mx) *. (snd p -. my)) (combine x y)) in
  np_div ssxym ssxm.

(** _cdr_fb.py:20-28; _cdr.pyx:38-57 does the same one edge at a time. *)
Definition tie_score (data_edges : list A) (t : A) : result A :=
  let t2 := t /. nofZ 2 in
  ties <- mapM (fun e => fmod (e +. t2) t) data_edges ;;
  let score := length (filter (fun d => t2 <. nabs d) (diff ties)) in
  match score with
  | O =>
      bits <- mapM (fun e => floor_div (e +. t2) t) data_edges ;;
      s <- slope (map nofZ bits) ties ;;
      Ok (nofZ 0 -. (nofZ 1 -. nabs s))
  | _ => Ok (nofZ (Z.of_nat score))
  end.
(** _cdr_fb.py:8-29, _cdr.pyx:12-58 *)
Definition tie_scores (data_edges t_span : list A) : result (list (A * A)) :=
  scores <- mapM (fun t => s <- tie_score data_edges t ;; Ok (t, s)) t_span ;;
  Ok (sort scores).
(** _cdr.pyx:33, 38 *)
Definition span_c (t_min t_max : A) (n : Z) : list A :=
  let t_step := (t_max -. t_min) /. nofZ (n - 1) in
  map (fun i => t_min +. nofZ (Z.of_nat i) *. t_step) (seq 0 (Z.to_nat n)).
(** [compiled] selects _cdr.pyx. *)
Definition span (compiled : bool) (t_min t_max : A) (n : Z) : list A :=
  if compiled then span_c t_min t_max n else linspace t_min t_max (Z.to_nat n).

(** _cdr_fb.py:85-91, _cdr.pyx:98-123: the number of edges used and the
    periods with a score below 1; [] if there is none. *)
Fixpoint finer (compiled : bool) (edges : list A) (t_min t_max : A) (ns : list (Z * Z)) : result (Z * list A) :=
  match ns with
  | [] => Ok (0, [])%Z
  | (n, points) :: ns' =>
      scores <- tie_scores (firstn (Z.to_nat n) edges) (span compiled t_min t_max points) ;;
      let lower := map fst (filter (fun s => snd s <. nofZ 1) scores) in
      match lower with
      | [] => finer compiled edges t_min t_max ns'
      | _ => Ok (n, lower)
      end
  end.
(** The fallback tests at least 20 periods each time, the compiled version
    only for the first of the shorter lists. *)
Definition rounds (compiled : bool) : list (Z * Z) :=
  let at_least n := Z.max 20 (n_comp / n) in
  if compiled then [(100000, at_least 100000); (10000, n_comp / 10000); (1000, n_comp / 1000); (100, n_comp / 100)]%Z
  else map (fun n => (n, at_least n)) [100000; 10000; 1000; 100]%Z.
(** _cdr_fb.py:96; _cdr.pyx:128 *)
Definition step_of (compiled : bool) (t_min t_max : A) (n : Z) : result A :=
  if compiled then np_div (t_max -. t_min) (nofZ (n_comp / n - 1))
  else
    let l := linspace t_min t_max (Z.to_nat (Z.max 20 (n_comp / n))) in
    a <- get l 0 ;; b <- get l 1 ;; Ok (b -. a).

(** _cdr_fb.py:32-117, _cdr.pyx:63-149 *)
Fixpoint minimize (compiled : bool) (max_iter : nat) (data_edges : list A) (t_min t_max tol : A) : result A :=
  e0 <- get data_edges 0 ;;
  let edges := map (fun e => e -. e0) data_edges in
  scores <- tie_scores edges (span compiled t_min t_max (Z.max 20 (n_comp / Z.of_nat (length edges)))) ;;
  best <- get scores 0 ;;
  if snd best <. tol then Ok (fst best)
  else
    match max_iter with
    | O => Err ArithmeticError
    | S k =>
        r <- finer compiled edges t_min t_max (rounds compiled) ;;
        let '(n, lower) := r in
        match lower with
        | [] => Err ArithmeticError
        | _ =>
            t_step <- step_of compiled t_min t_max n ;;
            lo <- py_min lower ;;
            hi <- py_max lower ;;
            lo <- py_max [t_min; lo -. t_step] ;;
            hi <- py_min [t_max; hi +. t_step] ;;
            minimize compiled k data_edges lo hi tol
        end
    end.
(** _cdr_fb.py:57-61, _cdr.pyx:141-145; default tol and max_iter *)
Definition minimize_tie_disjoints (compiled : bool) (data_edges : list A) (t_sym t_min t_max : option A) : result A :=
  match t_sym, t_min, t_max with
  | Some t, _, _ => minimize compiled 10 data_edges (t *. (nofZ 9 /. nofZ 10)) (t *. (nofZ 11 /. nofZ 10)) (nofZ 1)
  | None, Some t_min, Some t_max => minimize compiled 10 data_edges t_min t_max (nofZ 1)
  | _, _, _ => Err ValueError
  end.

(** _cdr_fb.py:134-145: bits and ties with the disjoints fixed *)
Definition add_offset {X} (f : X -> Z -> X) (l : list X) (offset : list Z) : list X :=
  map (fun p => f (fst p) (snd p)) (combine l offset).
Definition unwrap (data_edges : list A) (t_sym : A) : result (list Z * list A) :=
  let n := length data_edges in
  let t2 := t_sym /. nofZ 2 in
  e0 <- get data_edges 0 ;;
  bits <- mapM (fun e => floor_div (e -. e0 +. t2) t_sym) data_edges ;;
  ties <- mapM (fun e => fmod (e -. e0 +. t2) t_sym) data_edges ;;
  let ties := map (fun x => x -. t2) ties in
  let ties_diff := diff ties in
  let disjoints := filter (fun i => match nth_error ties_diff i with Some d => t2 <. nabs d | None => false end) (seq 0 (length ties_diff)) in
  Ok (fold_left (fun st disjoint =>
        let offset := repeat 0%Z (disjoint + 1) ++ repeat 1%Z (n - disjoint - 1) in
        let offset := match nth_error ties_diff disjoint with
                      | Some d => if nofZ 0 <. d then map Z.opp offset else offset
                      | None => offset
                      end in
        (add_offset Z.add (fst st) (map Z.opp offset),
         add_offset (fun x o => x +. nofZ o *. t_sym) (snd st) offset))
      disjoints (bits, ties)).
(** _cdr_fb.py:120-154 *)
Definition detrend_ties (data_edges : list A) (t_sym : A) : result A :=
  r <- unwrap data_edges t_sym ;;
  s <- slope (map nofZ (fst r)) (snd r) ;;
  Ok (t_sym +. s).
(** _cdr.pyx:154-205; reading the first of no edges is unchecked *)
Fixpoint unwrap_loop (t_start t_sym : A) (edges : list A) (bit_offset : Z) (tie_offset prev_tie : A) : result (list Z * list A) :=
  match edges with
  | [] => Ok ([], [])
  | e :: l =>
      let t2 := t_sym /. nofZ 2 in
      let edge := e -. t_start in
      bit <- floor_div (edge +. t2) t_sym ;;
      let tie := edge -. nofZ bit *. t_sym in
      let d := tie -. prev_tie in
      let '(bit_offset, tie_offset) :=
        if d <. nofZ 0 -. t2 then (bit_offset - 1, tie_offset +. t_sym)%Z
        else if t2 <. d then (bit_offset + 1, tie_offset -. t_sym)%Z
        else (bit_offset, tie_offset) in
      r <- unwrap_loop t_start t_sym l bit_offset tie_offset tie ;;
      Ok (bit + bit_offset :: fst r, tie +. tie_offset :: snd r)%Z
  end.
Definition detrend_ties_c (data_edges : list A) (t_sym : A) : result A :=
  match data_edges with
  | [] => Err UndefinedBehaviour
  | t_start :: l =>
      r <- unwrap_loop t_start t_sym l 0 (nofZ 0) (nofZ 0) ;;
      s <- slope (map nofZ (0%Z :: fst r)) (nofZ 0 :: snd r) ;;
      Ok (t_sym +. s)
  end.
Definition detrend (compiled : bool) := if compiled then detrend_ties_c else detrend_ties.

(** scipy.interpolate.interp1d(kind="previous") at one point, fill value
    [first] before the first point; the points must be sorted. *)
Definition previous (points : list (A * A)) (first : A) (x : A) : A :=
  fold_left (fun v p => if fst p <=. x then snd p else v) points first.
(** kind="next": the value of the first point at or after x, [last] if there is
    none *)
Fixpoint next (points : list (A * A)) (last : A) (x : A) : A :=
  match points with
  | [] => last
  | p :: l => if x <=. fst p then snd p else next l last x
  end.
Fixpoint sorted (l : list A) : bool :=
  match l with
  | a :: ((b :: _) as l') => (a <=. b) && sorted l'
  | _ => true
  end.
(** interp1d sorts its points; unsorted edges are not modelled. *)
Definition resample (f : list (A * A) -> A -> A -> A) (xs ys : list A) (fill : A) (x : list A) : result (list A) :=
  if sorted xs then Ok (map (f (combine xs ys) fill) x) else Err UndefinedBehaviour.

(** cdr.py:39-116 CDR.run *)
Definition run (compiled fixed_period : bool) (t_sym_initial : option A) (data_edges : list A) (resample_ties : bool) : result (list A * list A) :=
  t_start <- get data_edges 0 ;;
  let n := length data_edges in
  if (n <? 2)%nat then Err ValueError else
  match t_sym_initial with
  | None => Err ValueError
  | Some t_sym =>
      let data_periods := diff data_edges in
      num_sym <- mapM (fun p => q <- np_div p t_sym ;; Ok (floor (q +. nofZ 1 /. nofZ 2))) data_periods ;;
      let avg_sym := mean (map nofZ num_sym) in
      if (avg_sym <. nofZ 9 /. nofZ 10) || (nofZ 5 <. avg_sym) then Err ArithmeticError else
      t_sym <- (if fixed_period then Ok t_sym
                else
                  let e := nofZ 1 /. nofZ 100 in
                  t <- minimize compiled 10 data_edges (t_sym *. (nofZ 1 -. e)) (t_sym *. (nofZ 1 +. e)) (nofZ 100) ;;
                  detrend compiled data_edges t) ;;
      let t2 := t_sym /. nofZ 2 in
      ties <- mapM (fun e => m <- fmod (e -. t_start +. t2) t_sym ;; Ok (m -. t2)) data_edges ;;
      let m := mean ties in
      let t_start := t_start +. m in
      let ties := map (fun x => x -. m) ties in
      if existsb (fun d => t2 <. nabs d) (diff ties) then Err ArithmeticError else
      q <- np_div (last data_edges (nofZ 0) -. hd (nofZ 0) data_edges) t_sym ;;
      let n := (- floor (nofZ 0 -. q))%Z in
      if (n <? 0)%Z then Err ValueError else
      let clk_edges := map (fun x => x +. t_start +. t2) (linspace (nofZ 0) (t_sym *. nofZ (n - 1)) (Z.to_nat n)) in
      if resample_ties then
        ties <- resample previous data_edges ties (hd (nofZ 0) ties) clk_edges ;;
        Ok (clk_edges, ties)
      else Ok (clk_edges, ties)
  end.

(** numpy.fft.rfftfreq(n, d) *)
Definition rfftfreq (n : nat) (d : A) : result (list A) :=
  mapM (fun i => np_div (nofZ (Z.of_nat i)) (nofZ (Z.of_nat n) *. d)) (seq 0 (n / 2 + 1)).
(** l[100:-100] *)
Definition trim {X} (l : list X) : list X := skipn 100 (firstn (length l - 100) l).
(** cdr.py:155-189 CDRWithFFTFilter.run.  [filtered ties weights] stands for
    irfft(rfft(ties) * weights). *)
Definition run_filtered (ojtf : list A -> result (list A)) (filtered : list A -> list A -> list A)
    (compiled : bool) (t_sym : option A) (data_edges : list A) (resample_ties : bool) : result (list A * list A) :=
  r <- run compiled false t_sym data_edges true ;;
  let '(out_constant, ties_constant) := r in
  last_ <- (match rev out_constant with [] => Err IndexError | x :: _ => Ok x end) ;;
  first <- get out_constant 0 ;;
  t_sym_recovered <- np_div (last_ -. first) (nofZ (Z.of_nat (length out_constant) - 1)) ;;
  let n_fft := ((length out_constant / 2) * 2)%nat in
  let out_constant := firstn n_fft out_constant in
  let ties_constant := firstn n_fft ties_constant in
  if (n_fft =? 0)%nat then Err ValueError else
  fft_freq <- rfftfreq n_fft t_sym_recovered ;;
  g <- ojtf fft_freq ;;
  let edge_adj := filtered ties_constant (map (fun x => nofZ 1 -. nabs x) g) in
  if negb (length edge_adj =? n_fft)%nat then Err ValueError else
  let ties_filtered := map (fun p => fst p -. snd p) (combine ties_constant edge_adj) in
  let out_filtered := map (fun p => fst p +. snd p) (combine out_constant edge_adj) in
  if resample_ties then Ok (trim out_filtered, trim ties_filtered)
  else
    ties <- resample next out_filtered ties_filtered (last ties_filtered (nofZ 0)) data_edges ;;
    Ok (trim out_filtered, ties).
End Cdr.

(** cdr.py:136-153 high_pass_butter on reals.  At frequency 0 the code's power is
    left unset and the gain overwritten by 0. *)
Definition high_pass_butter (freqs : list R) (bandwidth : R) (order : Z) : result (list R) :=
  if neq bandwidth (nofZ 0) then Err UndefinedBehaviour
  else Ok (map (fun f => if neq f (nofZ 0) then 0%R else (1 / sqrt (1 + powerRZ (f / bandwidth) (-2 * order)))%R) freqs).
