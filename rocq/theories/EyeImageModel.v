(** Model of the images of an eye diagram: hardware_tools/measurement/eyediagram/
    eyediagram.py [_draw_grid], [_step5_stack] from line 874 on and
    [_runner_draw_symbols], pam2.py [_draw_grid], over the reals.  Images are
    functions of two indices giving the channels red, green, blue, alpha; they
    are read below the resolution only. *)
From Coq Require Import ZArith Reals Bool List.
Import ListNotations.
From Verif Require Import Base Num RBool MaskModel EyeModel EyeSpec.
From Verif Require ImageModel.
Local Open Scope R_scope.
Local Open Scope result_scope.

Definition image := Z -> Z -> list R.
Definition transparent : list R := [0; 0; 0; 0].
Definition blank : image := fun _ _ => transparent.
(** Channel 3 set. *)
Definition with_alpha (a : R) (p : list R) : list R := firstn 3 p ++ [a].
(** numpy.rot90 of a square array: [x, y] coordinates to [row, column] *)
Definition rot90 {X} (resolution : Z) (m : Z -> Z -> X) : Z -> Z -> X := fun row col => m col (resolution - 1 - row)%Z.
(** range(n) *)
Definition pixel_range (resolution : Z) : list Z := map Z.of_nat (seq 0 (Z.to_nat resolution)).

(** Measures.set_images, eyediagram.py:943-944 *)
Record images := Images { im_clean : image; im_grid : image; im_mask : image; im_hits : image; im_margin : image }.

(** The drawing functions of other packages. *)
Record drawing := Drawing {
  (** matplotlib's colour map jet on [0, 1]; it gives nan (0, 0, 0, 0) *)
  jet : R -> list R;
  (** skimage.draw.polygon, circle_perimeter: the pixels of the figure *)
  polygon : list (Z * Z) -> Z -> Z -> bool;
  circle : Z -> Z -> Z -> Z -> Z -> bool;
  (** skimage.draw.line_aa: pixels and their weights *)
  line_aa : Z -> Z -> Z -> Z -> list (Z * Z * R);
  (** Uninitialised values in layer_rgba, per call, pixel and channel *)
  junk : nat -> Z -> Z -> nat -> R }.

Section Images.
Variable draw : drawing.
(** astype(np.int32) *)
Variable cast : R -> Z.

(** eyediagram.py:877-889: zeros become nan, the rest is divided by the largest
    value.  An all-zero map stays all nan; an empty one raises. *)
Definition heat_max (resolution : Z) (h : Z -> Z -> R) : option R :=
  let vs := filter (fun v => negb (Reqb v 0)) (flat_map (fun row => map (h row) (pixel_range resolution)) (pixel_range resolution)) in
  match vs with [] => None | v :: vs => Some (fold_left Rmax vs v) end.
Definition clean_image (resolution : Z) (h : Z -> Z -> R) : result image :=
  if (resolution =? 0)%Z then Err ValueError
  else Ok (match heat_max resolution h with
           | None => blank
           | Some m => fun row col => if Reqb (h row col) 0 then transparent else jet draw (h row col / m)
           end).

(** eyediagram.py:797-812 and pam2.py:335-345 _draw_grid.  A stroke is drawn at
    one x (else at one y) on every [step]-th pixel; a position outside the image
    is skipped, but the first one beyond it raises. *)
Record stroke := Stroke { at_x : bool; step : Z; level : R }.
Definition grid_strokes (edge_lower edge_upper : R) : list stroke :=
  [Stroke true 1 0; Stroke true 3 (1 / 2); Stroke true 1 1;
   Stroke false 1 0; Stroke false 3 (1 / 2); Stroke false 1 1]
  ++ flat_map (fun u => [Stroke false 10 u; Stroke true 10 u]) [- (1 / 4); 1 / 4; 3 / 4; 5 / 4]
  ++ [Stroke false 5 edge_lower; Stroke false 5 edge_upper].
Definition draw_stroke (resolution : Z) (im : image) (s : stroke) : result image :=
  p <- uia_to_image_list int_of_float resolution (level s) ;;
  if existsb (fun x => (resolution <=? x)%Z) p then Err IndexError
  else Ok (fun x y =>
    let '(across, along) := if at_x s then (x, y) else (y, x) in
    if existsb (Z.eqb across) p && (along mod step s =? 0)%Z then with_alpha 1 (im x y) else im x y).
Definition draw_grid (resolution : Z) (edge_lower edge_upper : R) : result image :=
  foldM (draw_stroke resolution) (fun _ _ => [1; 1; 0; 0]) (grid_strokes edge_lower edge_upper).

(** mask.paths *)
Definition mask_paths (m : mask R) : result (list (list (R * R))) :=
  match m with MHexagon m => hex_get_paths m | MDecagon m => dec_get_paths m end.
(** eyediagram.py:900-910: the areas of the paths in magenta *)
Definition magenta : list R := [1; 0; 1; 1 / 2].
Definition draw_paths (resolution : Z) (paths : list (list (R * R))) : result image :=
  foldM (fun (im : image) (path : list (R * R)) =>
    p <- mapM (fun c => x <- uia_to_image int_of_float resolution (fst c) ;; y <- uia_to_image int_of_float resolution (snd c) ;; Ok (x, y)) path ;;
    Ok (fun x y => if polygon draw p x y then magenta else im x y)) blank paths.

(** eyediagram.py:912-928: circles around hits, once per pixel *)
Definition hit_radius (resolution : Z) : Z := truncR (Rmax 3 (IZR resolution / 500)).
Definition draw_hit (resolution : Z) (st : (Z -> Z -> bool) * image) (h : R * R) : result ((Z -> Z -> bool) * image) :=
  let '(drawn, im) := st in
  x <- uia_to_image int_of_float resolution (fst h) ;;
  y <- uia_to_image int_of_float resolution (snd h) ;;
  if ((0 <=? x) && (x <? resolution) && (0 <=? y) && (y <? resolution))%Z && negb (drawn x y) then
    Ok (fun a b => ((a =? x) && (b =? y))%Z || drawn a b,
        fun a b => if circle draw x y (hit_radius resolution) a b then with_alpha 1 (im a b) else im a b)
  else Ok (drawn, im).
Definition draw_hits (resolution : Z) (hits : list (R * R)) : result image :=
  st <- foldM (draw_hit resolution) (fun _ _ => false, fun _ _ => [1; 0; 0; 0]) hits ;; Ok (snd st).

(** eyediagram.py:1064-1077 of _runner_draw_symbols: one line of a symbol.
    Assigning a pixel listed twice leaves the last weight. *)
Definition weight (l : list (Z * Z * R)) (x y : Z) : option R :=
  fold_left (fun o p => let '(r, c, v) := p in if ((r =? x) && (c =? y))%Z then Some v else o) l None.
Definition draw_line (resolution : Z) (im : image) (a b : Z * Z) : image :=
  let l := filter (fun p : Z * Z * R => let '(r, c, _) := p in ((0 <=? r) && (r <? resolution) && (0 <=? c) && (c <? resolution))%Z)
             (line_aa draw (fst b) (snd b) (fst a) (snd a)) in
  fun x y => match weight l x y with
             | Some v => with_alpha (v + (1 - v) * nth 3 (im x y) 0) (im x y)
             | None => im x y
             end.
Fixpoint draw_lines (resolution : Z) (im : image) (td yd : list Z) : result image :=
  match td with
  | t0 :: ((t1 :: _) as td') =>
      im <- (if ((t1 <? 0) || (resolution <? t0))%Z then Ok im
             else y1 <- get yd 1 ;; y0 <- get yd 0 ;; Ok (draw_line resolution im (t0, y0) (t1, y1))) ;;
      draw_lines resolution im td' (tl yd)
  | _ => Ok im
  end.
(** eyediagram.py:1024-1079 _runner_draw_symbols *)
Definition draw_symbols (waveform_y : list R) (symbols : list (R * Z)) (t_delta t_sym min_y max_y : R) (resolution : Z)
    (sym_indices : list nat) : result image :=
  i_width <- get_i_width int_of_float t_sym t_delta ;;
  t0 <- window_axis i_width t_sym t_delta ;;
  let waveform_y := normalise_y waveform_y min_y (max_y - min_y) in
  foldM (fun (im : image) i =>
    s <- get symbols i ;;
    let '(t, y) := window_fb t0 waveform_y i_width t_sym s in
    let td := map (fun t => cast ((t + 1 / 2) / 2 * IZR resolution)) t in
    let yd := map (fun y => cast (y * IZR resolution)) y in
    draw_lines resolution im td yd) (fun _ _ => [1; 0; 0; 0]) sym_indices.
(** eyediagram.py:930-936: the first two offenders of every waveform on top *)
Definition draw_offenders (resolution : Z) (t_delta t_sym y_zero y_ua : R) (waves : list (list R * list (R * Z)))
    (offenders : list (list nat)) (im : image) : result image :=
  let min_y := - (1 / 2) * y_ua + y_zero in
  let max_y := 3 / 2 * y_ua + y_zero in
  foldM (fun (im : image) p =>
    let '(i, w) := p in
    o <- get offenders i ;;
    above <- draw_symbols (fst w) (snd w) t_delta t_sym min_y max_y resolution (firstn 2 o) ;;
    Ok (fun x y => ImageModel.layer_pixel (junk draw i x y) (im x y) (above x y))) im (combine (seq 0 (length waves)) waves).

(** eyediagram.py:874-944.  [converted] is the mask in units of the eye,
    [margin] the reported margin: adjusting by None raises. *)
Definition draw_images (resolution : Z) (h : Z -> Z -> R) (edge_lower edge_upper : R) (converted : option (mask R)) (margin : option R)
    (hits : list (R * R)) (offenders : list (list nat)) (t_delta t_sym y_zero y_ua : R) (waves : list (list R * list (R * Z))) : result images :=
  clean <- clean_image resolution h ;;
  grid <- draw_grid resolution edge_lower edge_upper ;;
  masked <- match converted with
    | None => Ok (blank, blank, blank)
    | Some m =>
        paths <- mask_paths m ;;
        im_mask <- draw_paths resolution paths ;;
        margin <- match margin with Some x => Ok x | None => Err TypeError end ;;
        paths <- mask_adjusted m margin ;;
        im_margin <- draw_paths resolution paths ;;
        im_hits <- draw_hits resolution hits ;;
        im_hits <- draw_offenders resolution t_delta t_sym y_zero y_ua waves offenders im_hits ;;
        Ok (im_mask, im_hits, im_margin)
    end ;;
  let '(im_mask, im_hits, im_margin) := masked in
  Ok (Images clean (rot90 resolution grid) (rot90 resolution im_mask) (rot90 resolution im_hits) (rot90 resolution im_margin)).
End Images.
