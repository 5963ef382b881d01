(** Model of hardware_tools/math/_lines.pyx (compiled version) where it is
    coded differently from the fallback.  Accesses are unchecked in the
    original (boundscheck False, wraparound False): [cget] turns an access out
    of range into [UndefinedBehaviour].  [rnd] is the conversion of a threshold
    to the C type [float] of the public Cython signatures. *)
From Coq Require Import List ZArith Bool.
Import ListNotations.
From Verif Require Import Base Num LinesModel.
Local Open Scope num_scope.
Local Open Scope result_scope.

(** Unchecked read. *)
Definition cget {A} (l : list A) (i : Z) : result A :=
  if (0 <=? i)%Z then
    match nth_error l (Z.to_nat i) with Some a => Ok a | None => Err UndefinedBehaviour end
  else Err UndefinedBehaviour.

(** Unchecked write. *)
Definition cset {A} (l : list A) (i : nat) (v : A) : result (list A) :=
  match set_nth l i v with Some l' => Ok l' | None => Err UndefinedBehaviour end.

Section LinesCy.
Context {A : Type} `{Num A}.

(** math/_lines.pyx:176-185 -- the search loops; [None] is the early
    [return (nan, i)], whose index is the first component. *)
Fixpoint crossing_c_loop (fuel : nat) (axis_search : list A) (i n : Z) (value : A)
         (step_forward : bool) : result (Z * bool) :=
  match fuel with
  | O => Err OutOfFuel
  | S fuel' =>
      si <- cget axis_search i ;;
      sp <- cget axis_search (i - 1)%Z ;;
      if Bool.eqb (si >. value) (sp >. value) then
        if step_forward then
          if (n <=? i + 1)%Z then Ok ((i + 1)%Z, false)
          else crossing_c_loop fuel' axis_search (i + 1)%Z n value step_forward
        else
          if (i - 1 <? 1)%Z then Ok ((i - 1)%Z, false)
          else crossing_c_loop fuel' axis_search (i - 1)%Z n value step_forward
      else Ok (i, true)
  end.

(** math/_lines.pyx:142-192 [crossing_c]; crossing_c_v (196-246) and
    crossing_c_v_np (250-300) are the same code returning the value only. *)
Definition crossing_c (axis_return axis_search : list A) (i : Z) (value : A)
           (step_forward : bool) (n : Z) : result (option A * Z) :=
  if (i <? 1)%Z || (n <=? i)%Z then Ok (None, i)
  else
    r <- crossing_c_loop (S (Z.to_nat n)) axis_search i n value step_forward ;;
    let '(i, found) := r in
    if found then
      x1 <- cget axis_return (i - 1)%Z ;;
      x2 <- cget axis_return i ;;
      y1 <- cget axis_search (i - 1)%Z ;;
      y2 <- cget axis_search i ;;
      q <- py_div (x2 -. x1) (y2 -. y1) ;;
      Ok (Some (q *. (value -. y1) +. x1), i)
    else Ok (None, i).

(** math/_lines.pyx:302-309 [crossing]: the threshold is a C float. *)
Definition crossing_cy (rnd : A -> A) (axis_return axis_search : list A) (i : Z)
           (value : A) (step_forward : bool) (n : Z) : result (option A * Z) :=
  let n := (if (n =? 0)%Z then Z.of_nat (length axis_search) else n) in
  crossing_c axis_return axis_search i (rnd value) step_forward n.

(** math/_lines.pyx:341-353 and 395-407 -- one iteration of edges_c /
    edges_np_c with unchecked reads and writes. *)
Definition edges_c_step (t y : list A) (y_rise y_half y_fall : A) (n : Z)
           (s : bool * list (option A) * nat * list (option A) * nat) (i : nat)
  : result (bool * list (option A) * nat * list (option A) * nat) :=
  let '(state_low, edges_rise, i_rise, edges_fall, i_fall) := s in
  yi <- cget y (Z.of_nat i) ;;
  if state_low then
    if yi >. y_rise then
      c <- crossing_c t y (Z.of_nat i) y_half false n ;;
      edges_rise <- cset edges_rise i_rise (fst c) ;;
      Ok (false, edges_rise, S i_rise, edges_fall, i_fall)
    else Ok s
  else
    if yi <. y_fall then
      c <- crossing_c t y (Z.of_nat i) y_half false n ;;
      edges_fall <- cset edges_fall i_fall (fst c) ;;
      Ok (true, edges_rise, i_rise, edges_fall, S i_fall)
    else Ok s.

(** math/_lines.pyx:313-355 [edges_c] and 367-409 [edges_np_c] (identical
    control flow; only the container type differs). *)
Definition edges_c (t y : list A) (y_rise y_half y_fall : A)
  : result (list (option A) * list (option A)) :=
  let n := length t in
  let zeros := repeat (Some (nofZ 0)) n in
  y0 <- cget y 0%Z ;;
  s <- foldM (edges_c_step t y y_rise y_half y_fall (Z.of_nat n))
             (y0 <. y_fall, zeros, O, zeros, O) (range 1 n) ;;
  let '(_, edges_rise, i_rise, edges_fall, i_fall) := s in
  Ok (firstn i_rise edges_rise, firstn i_fall edges_fall).

(** math/_lines.pyx:357-363 [edges] and 411-417 [edges_np]: C float thresholds. *)
Definition edges_cy (rnd : A -> A) (t y : list A) (y_rise y_half y_fall : A) :=
  edges_c t y (rnd y_rise) (rnd y_half) (rnd y_fall).

(** math/_lines.pyx:533-551 -- running minimum and maximum of one coordinate:
    [if p > max ... elif p < min ...]. *)
Definition minmax_c (l : list A) : result (A * A) :=
  match l with
  | [] => Err UndefinedBehaviour
  | x :: l' =>
      Ok (fold_left (fun mm p =>
            let '(mn, mx) := mm in
            if p >. mx then (mn, p) else if p <. mn then (p, mx) else mm)
          l' (x, x))
  end.

(** math/_lines.pyx:501-568 [hits_c].  [intersection_c] (441-483) computes the
    same expressions in the same order as the fallback, hence [intersection]. *)
Definition hits_c (t y : list A) (paths : list (list (A * A)))
  : result (list (A * A)) :=
  foldM (fun acc path =>
    let path_t := map fst path in
    let path_y := map snd path in
    mt <- minmax_c path_t ;;
    my <- minmax_c path_y ;;
    foldM (fun acc i =>
      ti <- cget t (Z.of_nat i) ;;
      tp <- cget t (Z.of_nat (i - 1)) ;;
      yi <- cget y (Z.of_nat i) ;;
      yp <- cget y (Z.of_nat (i - 1)) ;;
      if skip_segment tp ti yp yi (fst mt) (snd mt) (fst my) (snd my) then Ok acc
      else hits_path_loop ti yi tp yp path_t path_y acc)
      acc (range 1 (length t)))
    [] paths.

(** math/_lines.pyx:645-651 -- append to the growing result array of
    [hits_np_c]: (buffer, n_intersections, i_intersection). *)
Definition push_np (n_t : nat) (s : list (A * A) * nat * nat) (point : A * A)
  : result (list (A * A) * nat * nat) :=
  let '(buf, n_int, i_int) := s in
  let zero := (nofZ 0, nofZ 0) in
  let '(buf, n_int) :=
    if (n_int <=? i_int)%nat then (buf ++ repeat zero n_t, (n_int + n_t)%nat)
    else (buf, n_int) in
  buf <- cset buf i_int point ;;
  Ok (buf, n_int, S i_int).

(** math/_lines.pyx:575-652 [hits_np_c]. *)
Definition hits_np_c (t y : list A) (paths : list (list (A * A)))
  : result (list (A * A)) :=
  let n_t := length t in
  let zero := (nofZ 0, nofZ 0) in
  s <- foldM (fun s path =>
    let path_t := map fst path in
    let path_y := map snd path in
    mt <- minmax_c path_t ;;
    my <- minmax_c path_y ;;
    foldM (fun s i =>
      ti <- cget t (Z.of_nat i) ;;
      tp <- cget t (Z.of_nat (i - 1)) ;;
      yi <- cget y (Z.of_nat i) ;;
      yp <- cget y (Z.of_nat (i - 1)) ;;
      if skip_segment tp ti yp yi (fst mt) (snd mt) (fst my) (snd my) then Ok s
      else
        foldM (fun s ii =>
           a <- get path_t ii ;;
           b <- get path_y ii ;;
           c <- get path_t (ii - 1) ;;
           d <- get path_y (ii - 1) ;;
           match intersection ti yi tp yp a b c d true with
           | Some point => push_np n_t s point
           | None => Ok s
           end) s (range 1 (length path_t)))
      s (range 1 n_t))
    (repeat zero n_t, n_t, O) paths ;;
  let '(buf, _, i_int) := s in
  Ok (firstn i_int buf).

(** math/_lines.pyx:661-725 [is_hitting_c] and 732-798 [is_hitting_np_c]. *)
Definition is_hitting_c (t y : list A) (paths : list (list (A * A))) : result bool :=
  existsM (fun path =>
    let path_t := map fst path in
    let path_y := map snd path in
    mt <- minmax_c path_t ;;
    my <- minmax_c path_y ;;
    existsM (fun i =>
      ti <- cget t (Z.of_nat i) ;;
      tp <- cget t (Z.of_nat (i - 1)) ;;
      yi <- cget y (Z.of_nat i) ;;
      yp <- cget y (Z.of_nat (i - 1)) ;;
      if skip_segment tp ti yp yi (fst mt) (snd mt) (fst my) (snd my) then Ok false
      else is_hitting_path_loop ti yi tp yp path_t path_y)
      (range 1 (length t)))
    paths.

End LinesCy.
