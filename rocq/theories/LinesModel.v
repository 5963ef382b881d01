(** Model of hardware_tools/math/_lines_fb.py (pure Python fallback):
    crossing, edges, edges_np, intersection, hits, hits_np, is_hitting,
    is_hitting_np.  Numbers are abstract ([Num]); NaN returned by [crossing] on
    failure is [None].  Indexing is checked ([getz], [get]). *)
From Coq Require Import List ZArith Bool.
Import ListNotations.
From Verif Require Import Base Num.
Local Open Scope num_scope.
Local Open Scope result_scope.

Section Lines.
Context {A : Type} `{Num A}.

(** math/_lines_fb.py:124-125 -- the [while] loop of [crossing].  [fuel] makes
    it total; [crossing] passes enough fuel (proved). *)
Fixpoint crossing_loop (fuel : nat) (axis_search : list A) (i n : Z) (value : A)
         (step_forward : bool) : result Z :=
  match fuel with
  | O => Err OutOfFuel
  | S fuel' =>
      if (0 <? i)%Z && (i <? n)%Z then
        si <- getz axis_search i ;;
        sp <- getz axis_search (i - 1)%Z ;;
        if Bool.eqb (si >. value) (sp >. value) then
          crossing_loop fuel' axis_search (if step_forward then i + 1 else i - 1)%Z
                        n value step_forward
        else Ok i
      else Ok i
  end.

(** math/_lines_fb.py:92-135 [crossing].  Result: (interpolated value or NaN, index). *)
Definition crossing (axis_return axis_search : list A) (i : Z) (value : A)
           (step_forward : bool) (n : Z) : result (option A * Z) :=
  let n := (if (n =? 0)%Z then Z.of_nat (length axis_search) else n) in
  i <- crossing_loop (S (Z.to_nat n)) axis_search i n value step_forward ;;
  if (i <? 1)%Z || (n <=? i)%Z then Ok (None, i)
  else
    x1 <- getz axis_return (i - 1)%Z ;;
    x2 <- getz axis_return i ;;
    y1 <- getz axis_search (i - 1)%Z ;;
    y2 <- getz axis_search i ;;
    q <- py_div (x2 -. x1) (y2 -. y1) ;;
    Ok (Some (q *. (value -. y1) +. x1), i).

(** math/_lines_fb.py:157-167 -- one iteration of the loop of [edges].
    State: (state_low, edges_rise, edges_fall). *)
Definition edges_step (t y : list A) (y_rise y_half y_fall : A) (n : Z)
           (s : bool * list (option A) * list (option A)) (i : nat)
  : result (bool * list (option A) * list (option A)) :=
  let '(state_low, edges_rise, edges_fall) := s in
  yi <- get y i ;;
  if state_low then
    if yi >. y_rise then
      c <- crossing t y (Z.of_nat i) y_half false n ;;
      Ok (false, edges_rise ++ [fst c], edges_fall)
    else Ok s
  else
    if yi <. y_fall then
      c <- crossing t y (Z.of_nat i) y_half false n ;;
      Ok (true, edges_rise, edges_fall ++ [fst c])
    else Ok s.

(** math/_lines_fb.py:138-169 [edges]. *)
Definition edges (t y : list A) (y_rise y_half y_fall : A)
  : result (list (option A) * list (option A)) :=
  y0 <- get y 0 ;;
  s <- foldM (edges_step t y y_rise y_half y_fall 0)
             (y0 <. y_fall, [], []) (range 1 (length y)) ;;
  let '(_, edges_rise, edges_fall) := s in
  Ok (edges_rise, edges_fall).

(** math/_lines_fb.py:200-212 -- one iteration of the loop of [edges_np], which
    writes into preallocated arrays of n zeros.
    State: (state_low, edges_rise, i_rise, edges_fall, i_fall). *)
Definition edges_np_step (t y : list A) (y_rise y_half y_fall : A) (n : Z)
           (s : bool * list (option A) * nat * list (option A) * nat) (i : nat)
  : result (bool * list (option A) * nat * list (option A) * nat) :=
  let '(state_low, edges_rise, i_rise, edges_fall, i_fall) := s in
  yi <- get y i ;;
  if state_low then
    if yi >. y_rise then
      c <- crossing t y (Z.of_nat i) y_half false n ;;
      match set_nth edges_rise i_rise (fst c) with
      | Some edges_rise => Ok (false, edges_rise, S i_rise, edges_fall, i_fall)
      | None => Err IndexError
      end
    else Ok s
  else
    if yi <. y_fall then
      c <- crossing t y (Z.of_nat i) y_half false n ;;
      match set_nth edges_fall i_fall (fst c) with
      | Some edges_fall => Ok (true, edges_rise, i_rise, edges_fall, S i_fall)
      | None => Err IndexError
      end
    else Ok s.

(** math/_lines_fb.py:172-214 [edges_np]. *)
Definition edges_np (t y : list A) (y_rise y_half y_fall : A)
  : result (list (option A) * list (option A)) :=
  let n := length t in
  let zeros := repeat (Some (nofZ 0)) n in
  y0 <- get y 0 ;;
  s <- foldM (edges_np_step t y y_rise y_half y_fall (Z.of_nat n))
             (y0 <. y_fall, zeros, O, zeros, O) (range 1 n) ;;
  let '(_, edges_rise, i_rise, edges_fall, i_fall) := s in
  Ok (firstn i_rise edges_rise, firstn i_fall edges_fall).

(** math/_lines_fb.py:217-258 [intersection].  [d] cannot be zero at the
    division, so the plain division is used. *)
Definition intersection (p1 p2 q1 q2 r1 r2 s1 s2 : A) (segments : bool)
  : option (A * A) :=
  let zero := nofZ 0 in
  let d := (p1 -. q1) *. (r2 -. s2) -. (p2 -. q2) *. (r1 -. s1) in
  if d =. zero then None
  else
    let t_n := (p1 -. r1) *. (r2 -. s2) -. (p2 -. r2) *. (r1 -. s1) in
    let u_n := (p1 -. r1) *. (p2 -. q2) -. (p2 -. r2) *. (p1 -. q1) in
    let outside :=
      if segments then
        if d >. zero then
          (t_n <. zero) || (u_n <. zero) || (t_n >. d) || (u_n >. d)
        else
          (t_n >. zero) || (u_n >. zero) || (t_n <. d) || (u_n <. d)
      else false in
    if outside then None
    else
      let t := t_n /. d in
      Some (p1 +. t *. (q1 -. p1), p2 +. t *. (q2 -. p2)).

(** math/_lines_fb.py:283-290 -- the bounding box shortcut ([continue]) shared
    by [hits] and [is_hitting]: true when the segment is skipped. *)
Definition skip_segment (tp ti yp yi min_t max_t min_y max_y : A) : bool :=
  if (ti <. min_t) || (tp >. max_t) then true
  else if yi >. yp then (yi <. min_y) || (yp >. max_y)
       else (yi >. max_y) || (yp <. min_y).

(** math/_lines_fb.py:292-296 -- the innermost loop of [hits]. *)
Definition hits_path_loop (ti yi tp yp : A) (path_t path_y : list A)
           (acc : list (A * A)) : result (list (A * A)) :=
  foldM (fun acc ii =>
           a <- get path_t ii ;;
           b <- get path_y ii ;;
           c <- get path_t (ii - 1) ;;
           d <- get path_y (ii - 1) ;;
           match intersection ti yi tp yp a b c d true with
           | Some point => Ok (acc ++ [point])
           | None => Ok acc
           end) acc (range 1 (length path_t)).

(** math/_lines_fb.py:261-297 [hits]. *)
Definition hits (t y : list A) (paths : list (list (A * A)))
  : result (list (A * A)) :=
  foldM (fun acc path =>
    let path_t := map fst path in
    let path_y := map snd path in
    min_t <- py_min path_t ;;
    max_t <- py_max path_t ;;
    min_y <- py_min path_y ;;
    max_y <- py_max path_y ;;
    foldM (fun acc i =>
      ti <- get t i ;;
      tp <- get t (i - 1) ;;
      yi <- get y i ;;
      yp <- get y (i - 1) ;;
      if skip_segment tp ti yp yi min_t max_t min_y max_y then Ok acc
      else hits_path_loop ti yi tp yp path_t path_y acc)
      acc (range 1 (length t)))
    [] paths.

(** math/_lines_fb.py:300-315 [hits_np]: tolist, hits, np.array (identity here). *)
Definition hits_np := hits.

(** math/_lines_fb.py:346-350 -- the innermost loop of [is_hitting]. *)
Definition is_hitting_path_loop (ti yi tp yp : A) (path_t path_y : list A)
  : result bool :=
  existsM (fun ii =>
           a <- get path_t ii ;;
           b <- get path_y ii ;;
           c <- get path_t (ii - 1) ;;
           d <- get path_y (ii - 1) ;;
           Ok (match intersection ti yi tp yp a b c d true with
               | Some _ => true
               | None => false
               end)) (range 1 (length path_t)).

(** math/_lines_fb.py:318-351 [is_hitting]. *)
Definition is_hitting (t y : list A) (paths : list (list (A * A))) : result bool :=
  existsM (fun path =>
    let path_t := map fst path in
    let path_y := map snd path in
    min_t <- py_min path_t ;;
    max_t <- py_max path_t ;;
    min_y <- py_min path_y ;;
    max_y <- py_max path_y ;;
    existsM (fun i =>
      ti <- get t i ;;
      tp <- get t (i - 1) ;;
      yi <- get y i ;;
      yp <- get y (i - 1) ;;
      if skip_segment tp ti yp yi min_t max_t min_y max_y then Ok false
      else is_hitting_path_loop ti yi tp yp path_t path_y)
      (range 1 (length t)))
    paths.

(** math/_lines_fb.py:354-369 [is_hitting_np]: tolist, is_hitting. *)
Definition is_hitting_np := is_hitting.

End Lines.
