(** Model of the reports of an eye diagram: hardware_tools/measurement/eyediagram/
    eyediagram.py [MeasuresJSONEncoder], [Measures], pam2.py [MeasuresPAM2],
    hardware_tools/math/image.py [np_to_base64], [np_to_file] and
    hardware_tools/math/stats.py [UncertainValue.__format__, __repr__, isnan]. *)
From Coq Require Import String ZArith Reals Bool List.
Import ListNotations.
From Verif Require Import Base Num PyStr StatsModel Pam2Model EyeImageModel EyeRunModel.
From Verif Require ImageModel.
Local Open Scope string_scope.
Local Open Scope list_scope.
Local Open Scope result_scope.

(** A float.  Rounding is not modelled: the numbers are real. *)
Inductive pfloat := PReal (x : R) | PNan | PInf (negative : bool).
Definition finite (x : pfloat) : bool := match x with PReal _ => true | _ => false end.

(** numpy arrays of floats of any dimension. *)
Inductive ndarray := AFloat (x : pfloat) | ADim (l : list ndarray).

(** The Python values that measures hold.  [OFloat] includes numpy.float64, which
    is a float; [ONpFloat] is any other numpy.floating, [ONpInt] a numpy.integer;
    [OOther] an object of any other class, with the name of the class.  Keys of
    dictionaries are strings. *)
Inductive obj :=
| ONone | OInt (n : Z) | OFloat (x : pfloat) | OStr (s : pystr) | OBytes (b : list Z)
| OList (l : list obj) | ODict (l : list (pystr * obj))
| OUncertain (v s : pfloat) | ONpInt (n : Z) | ONpFloat (x : pfloat) | OArray (a : ndarray)
| OOther (class : pystr).

(** What json.dump writes, as a tree: the text of the numbers and strings is not
    modelled.  A number that is not finite is written NaN, Infinity or -Infinity,
    which is no JSON. *)
Inductive jvalue :=
| JNull | JInt (n : Z) | JFloat (x : pfloat) | JText (s : pystr)
| JArray (l : list jvalue) | JObject (l : list (pystr * jvalue)).

(** ndarray.tolist() *)
Fixpoint tolist (a : ndarray) : obj :=
  match a with
  | AFloat x => OFloat x
  | ADim l => OList (map tolist l)
  end.

(** bytes.decode(encoding="utf-8").  Simplification: only ASCII is decoded,
    longer sequences count as invalid (UnicodeDecodeError is a ValueError). *)
Definition decode (b : list Z) : result pystr :=
  if forallb (fun c => (0 <=? c) && (c <? 128))%Z b then Ok b else Err ValueError.

(** eyediagram.py:40-55 [MeasuresJSONEncoder.default]; the default of the base
    class raises TypeError. *)
Definition default (o : obj) : result obj :=
  match o with
  | OUncertain v s => Ok (ODict [(str "__type__", OStr (str "UncertainValue")); (str "value", OFloat v); (str "stddev", OFloat s)])
  | OBytes b => s <- decode b ;; Ok (OStr s)
  | ONpInt n => Ok (OInt n)
  | ONpFloat x => Ok (OFloat x)
  | OArray a => Ok (tolist a)
  | _ => Err TypeError
  end.

(** json.dump(o, file, cls=MeasuresJSONEncoder, allow_nan=allow_nan): contract of
    the json package, which asks [default] about the objects it does not know. *)
Fixpoint encode (fuel : nat) (allow_nan : bool) (o : obj) : result jvalue :=
  match fuel with
  | O => Err OutOfFuel
  | S fuel =>
      match o with
      | ONone => Ok JNull
      | OInt n => Ok (JInt n)
      | OFloat x => if finite x || allow_nan then Ok (JFloat x) else Err ValueError
      | OStr s => Ok (JText s)
      | OList l => l <- mapM (encode fuel allow_nan) l ;; Ok (JArray l)
      | ODict l => l <- mapM (fun kv => v <- encode fuel allow_nan (snd kv) ;; Ok (fst kv, v)) l ;; Ok (JObject l)
      | _ => d <- default o ;; encode fuel allow_nan d
      end
  end.

(** Nesting of values, enough fuel for [encode]. *)
Fixpoint array_depth (a : ndarray) : nat :=
  match a with AFloat _ => 1 | ADim l => S (fold_right Nat.max 0 (map array_depth l)) end%nat.
Fixpoint depth (o : obj) : nat :=
  match o with
  | OList l => S (fold_right Nat.max 0 (map depth l))
  | ODict l => S (fold_right Nat.max 0 (map (fun kv => depth (snd kv)) l))
  | OUncertain _ _ => 3
  | OBytes _ | ONpInt _ | ONpFloat _ => 2
  | OArray a => S (array_depth a)
  | _ => 1
  end%nat.

(** An object: its instance attributes, the methods of its class and the
    properties of its class with what they return. *)
Record pyobject := PyObject {
  instance : list (pystr * obj); methods : list pystr; properties : list (pystr * obj) }.

(** Order of strings by code points. *)
Fixpoint str_ltb (a b : pystr) : bool :=
  match a, b with
  | [], [] => false
  | [], _ :: _ => true
  | _ :: _, [] => false
  | x :: a, y :: b => (x <? y)%Z || ((x =? y)%Z && str_ltb a b)
  end.
Fixpoint insert_name (k : pystr) (l : list pystr) : list pystr :=
  match l with
  | [] => [k]
  | k' :: l' => if str_ltb k k' then k :: l else if str_eqb k k' then l else k' :: insert_name k l'
  end.
(** dir(o): the names of the attributes, sorted, each once. *)
Definition dir (o : pyobject) : list pystr :=
  fold_right insert_name [] (map fst (instance o) ++ methods o ++ map fst (properties o)).

Fixpoint lookup {X} (k : pystr) (l : list (pystr * X)) : option X :=
  match l with
  | [] => None
  | (k', x) :: l => if str_eqb k k' then Some x else lookup k l
  end.
(** hasattr(self.__class__, key) and isinstance(attr, property) *)
Definition is_method (o : pyobject) (k : pystr) : bool := existsb (str_eqb k) (methods o).
(** getattr(self, key) of a name that is no method: properties take precedence
    over instance attributes. *)
Definition getattr (o : pyobject) (k : pystr) : result obj :=
  match lookup k (properties o) with
  | Some x => Ok x
  | None => match lookup k (instance o) with Some x => Ok x | None => Err AttributeError end
  end.

(** eyediagram.py:201-225 [Measures.to_dict]. *)
Definition to_dict (o : pyobject) (exclude_images : bool) : result (list (pystr * obj)) :=
  foldM (fun d key =>
    if startswith (str "_") key then Ok d
    else if exclude_images && startswith (str "image") key then Ok d
    else if is_method o key then Ok d
    else item <- getattr o key ;; Ok (d ++ [(key, item)])) [] (dir o).

(** math/image.py:56-79: what PIL makes of (255 * image).astype("uint8"), by
    row and column. *)
Definition bitmap := Z -> Z -> list Z.
Definition to_bitmap (im : image) : bitmap := fun row col => map ImageModel.to_uint8 (im row col).

(** A file system: what the files contain.  [Truncated] is a file whose writing
    failed: any prefix of the document. *)
Inductive content := Document (d : jvalue) | Truncated | Png (size : Z) (b : bitmap) | Bytes (b : list Z).
Definition files := pystr -> option content.
Definition write (fs : files) (name : pystr) (c : content) : files :=
  fun n => if str_eqb n name then Some c else fs n.

Section Report.
(** base64.b64encode of the PNG file that PIL writes for a bitmap. *)
Variable png64 : Z -> bitmap -> list Z.
(** The elements that np.divide leaves uninitialised, per call of layer_rgba. *)
Variable junk : nat -> Z -> Z -> nat -> R.
(** f"{x:{spec}}" of a float x, and str(x). *)
Variable format_float : pystr -> pfloat -> pystr.
Variable str_float : pfloat -> pystr.
(** f"{array.shape}" and f"{array.dtype}" *)
Variable shape_text dtype_text : ndarray -> pystr.

(** eyediagram.py:171-199: the properties image_*. *)
Definition image_property (size : Z) (im : option image) : obj :=
  match im with
  | None => ONone
  | Some im => OBytes (png64 size (to_bitmap im))
  end.

(** An UncertainValue; [None] is one with value and stddev nan, as in Pam2Model. *)
Definition uncertain (u : option uvalue) : obj :=
  match u with
  | Some u => OUncertain (PReal (value u)) (PReal (stddev u))
  | None => OUncertain PNan PNan
  end.
Definition float_or_nan (x : option R) : pfloat := match x with Some x => PReal x | None => PNan end.
(** Attributes that keep the None of the constructors when measuring is skipped. *)
Definition of_y (m : measures) (f : measures_y -> option uvalue) : obj :=
  match in_y m with Some y => uncertain (f y) | None => ONone end.
Definition of_t (m : measures) (f : measures_t -> option uvalue) : obj :=
  match in_t m with Some t => uncertain (f t) | None => ONone end.
Definition of_t_float (m : measures) (f : measures_t -> option R) : obj :=
  match in_t m with Some t => OFloat (float_or_nan (f t)) | None => ONone end.
(** pam2.py:357-366,381-390,403-404,424: the keys of transition_dist *)
Definition transition_keys : list (string * seq3) :=
  [("000", (false, false, false)); ("001", (false, false, true));
   ("010", (false, true, false)); ("011", (false, true, true));
   ("100", (true, false, false)); ("101", (true, false, true));
   ("110", (true, true, false)); ("111", (true, true, true))].
Definition transition_obj (dist : seq3 -> Z) : obj :=
  ODict (map (fun kq => (str (fst kq), OInt (dist (snd kq)))) transition_keys).
(** pam2.py:556, eyediagram.py:734-756: one curve, np.array([t, ber]). *)
Definition float_array (l : list R) : ndarray := ADim (map (fun x => AFloat (PReal x)) l).
Definition bathtub_obj (curves : option (list (list R * list R))) : obj :=
  match curves with
  | None => ONone
  | Some curves =>
      ODict (map (fun kc => (fst kc, OArray (ADim [float_array (fst (snd kc)); float_array (snd (snd kc))])))
                 (combine [str "Eye 0"] curves))
  end.

(** eyediagram.py:84-101, pam2.py:88-129 [MeasuresPAM2] with the assignments of
    pam2.py:349-369,412-449,514-556 and [set_images] (eyediagram.py:103-121),
    which sets all five images. *)
Definition measures_object (size : Z) (m : measures) (im : option images) : pyobject :=
  let array x := match im with Some im => OOther (str "ndarray") | None => ONone end in
  let shown f := image_property size (option_map f im) in
  let y := of_y m in let t := of_t m in
  PyObject
    [(str "n_samples", OInt (n_samples m)); (str "n_sym", OInt (n_sym m));
     (str "n_sym_bad", match in_t m with
                       | None => ONone
                       | Some _ => match n_sym_bad m with Some n => OInt (Z.of_nat n) | None => OFloat PNan end
                       end);
     (str "transition_dist", transition_obj (transition_dist m));
     (str "mask_margin", match in_t m with None => ONone | Some _ => OFloat (float_or_nan (mask_margin m)) end);
     (str "_np_image_clean", array im_clean); (str "_np_image_grid", array im_grid); (str "_np_image_mask", array im_mask);
     (str "_np_image_hits", array im_hits); (str "_np_image_margin", array im_margin);
     (str "bathtub_curves", bathtub_obj (bathtub_curve m));
     (str "y_0", y m_y_0); (str "y_1", y m_y_1); (str "y_cross", y m_y_cross); (str "y_cross_r", y m_y_cross_r);
     (str "y_avg", y m_y_avg); (str "y_0_cross", y m_y_0_cross); (str "y_1_cross", y m_y_1_cross);
     (str "amp", y m_amp); (str "height", y m_height); (str "height_r", y m_height_r); (str "snr", y m_snr);
     (str "t_sym", t m_t_sym); (str "t_0", t m_t_0); (str "t_1", t m_t_1);
     (str "t_0_start", t m_t_0_start); (str "t_1_start", t m_t_1_start);
     (str "t_rise", t m_t_rise); (str "t_fall", t m_t_fall);
     (str "t_rise_start", t m_t_rise_start); (str "t_fall_start", t m_t_fall_start); (str "t_cross", t m_t_cross);
     (str "f_sym", t m_f_sym); (str "width", t m_width); (str "width_r", t m_width_r);
     (str "dcd", t m_dcd); (str "dcd_r", t m_dcd_r);
     (str "jitter_pp", of_t_float m m_jitter_pp); (str "jitter_rms", of_t_float m m_jitter_rms);
     (str "extinction_ratio", y m_extinction_ratio); (str "oma_cross", y m_oma_cross); (str "vecp", y m_vecp)]
    [str "__init__"; str "set_images"; str "save_images"; str "save_json"; str "to_dict"; str "pretty_print";
     str "_abc_impl"; str "__dict__"; str "__class__"]
    [(str "image_clean", shown im_clean); (str "image_grid", shown im_grid); (str "image_mask", shown im_mask);
     (str "image_hits", shown im_hits); (str "image_margin", shown im_margin)].

(** eyediagram.py:154-169 [save_json]: open(filename, "w") empties the file, then
    the dictionary is made and written.  Opening is taken to succeed; of the
    arguments passed on to json.dump only allow_nan is modelled. *)
Definition save_json (o : pyobject) (filename : pystr) (exclude_images allow_nan : bool) (fs : files) : result unit * files :=
  match (d <- to_dict o exclude_images ;; encode (depth (ODict d)) allow_nan (ODict d)) with
  | Ok doc => (Ok tt, write fs filename (Document doc))
  | Err e => (Err e, write fs filename Truncated)
  end.

(** math/image.py:71-79 [np_to_file] of an array.  Writing is taken to succeed. *)
Definition np_to_file (size : Z) (im : image) (path : pystr) (fs : files) : files := write fs path (Png size (to_bitmap im)).
(** math/image.py:11-53 on images of the same shape. *)
Definition layer (call : nat) (below above : image) : image :=
  fun row col => ImageModel.layer_pixel (junk call row col) (below row col) (above row col).

(** eyediagram.py:123-152 [save_images].  Before set_images the first call
    multiplies None by 255, which raises TypeError. *)
Definition save_images (size : Z) (im : option images) (basename : pystr) (stack : bool) (fs : files) : result unit * files :=
  match im with
  | None => (Err TypeError, fs)
  | Some im =>
      let fs := np_to_file size (im_clean im) (basename ++ str ".clean.png") fs in
      let fs := np_to_file size (im_grid im) (basename ++ str ".grid.png") fs in
      let fs := np_to_file size (im_mask im) (basename ++ str ".mask.png") fs in
      let fs := np_to_file size (im_hits im) (basename ++ str ".hits.png") fs in
      let fs := np_to_file size (im_margin im) (basename ++ str ".mask_margin.png") fs in
      if stack then
        let img := layer 0 (im_grid im) (im_clean im) in
        let img := layer 1 img (im_mask im) in
        let img := layer 2 img (im_hits im) in
        let fs := np_to_file size img (basename ++ str ".png") fs in
        let img := layer 3 (im_grid im) (im_clean im) in
        let img := layer 4 img (im_margin im) in
        let fs := np_to_file size img (basename ++ str ".margin.png") fs in
        (Ok tt, fs)
      else (Ok tt, fs)
  end.

(** stats.py:201-212 [UncertainValue.__format__], [__repr__]: 181 is the letter
    mu, 963 sigma. *)
Definition repr_uncertain (v s : pfloat) : pystr :=
  [40; 181; 61]%Z ++ str_float v ++ [44; 963; 61]%Z ++ str_float s ++ [41]%Z.
Definition understood : pystr := str "0123456789eEgGfFn%".
Definition format_uncertain (spec : pystr) (v s : pfloat) : result pystr :=
  match rev spec with
  | [] => Ok (repr_uncertain v s)
  | c :: _ =>
      if existsb (Z.eqb c) understood
      then Ok ([40; 181; 61]%Z ++ format_float spec v ++ [44; 963; 61]%Z ++ format_float spec s ++ [41]%Z)
      else Err TypeError
  end.
(** stats.py:302-303 [isnan] *)
Definition isnan_uncertain (v s : pfloat) : bool :=
  match v with PNan => true | _ => match s with PNan => true | _ => false end end.

(** type(o).__qualname__ *)
Definition type_name (o : obj) : pystr :=
  match o with
  | ONone => str "NoneType" | OInt _ => str "int" | OFloat _ => str "float" | OStr _ => str "str"
  | OBytes _ => str "bytes" | OList _ => str "list" | ODict _ => str "dict" | OUncertain _ _ => str "UncertainValue"
  | ONpInt _ => str "integer" | ONpFloat _ => str "floating" | OArray _ => str "ndarray" | OOther c => c
  end.
(** eyediagram.py:245-251,266-273,275-282: format_specifiers *)
Definition print_value (o : obj) : result pystr :=
  match o with
  | OFloat x | ONpFloat x => Ok (format_float (str "10.3G") x)
  | OInt n | ONpInt n => Ok (lpad 10 32 (str_int n))
  | OUncertain v s => format_uncertain (str "10.3G") v s
  | _ => Ok (str "[Unknown, type=" ++ type_name o ++ str "]")
  end.
(** f"{key:{width}}" *)
Definition rpad (w : nat) (s : pystr) : pystr := s ++ repeat 32%Z (w - length s).
Definition newline : pystr := [10%Z].

(** eyediagram.py:261-273: what is printed about one entry of a dictionary. *)
Definition print_entry (kk_max : nat) (kv : pystr * obj) : result pystr :=
  text <- match snd kv with
          | OArray a => Ok (str "[np.ndarray, shape=" ++ shape_text a ++ str ", dtype=" ++ dtype_text a ++ str "]")
          | v => print_value v
          end ;;
  Ok (str "  " ++ rpad kk_max (fst kv) ++ str ": " ++ text ++ newline).

(** eyediagram.py:227-282 [pretty_print]: the text printed, or the exception;
    what was printed before an exception is not kept.  max() of no keys raises
    ValueError. *)
Definition longest (l : list pystr) : nat := fold_right Nat.max 0%nat (map (@length Z) l).
Definition pretty_print (o : pyobject) : result pystr :=
  let properties_filtered := filter (fun key => negb (startswith (str "_") key) && negb (is_method o key)) (dir o) in
  let max_length := longest properties_filtered in
  foldM (fun out key =>
    let out := out ++ rpad max_length key ++ str ": " in
    if startswith (str "image") key then Ok (out ++ str "[Image]" ++ newline)
    else
      item <- getattr o key ;;
      match item with
      | ODict [] => Err ValueError
      | ODict l =>
          lines <- mapM (print_entry (longest (map fst l))) l ;;
          Ok (out ++ newline ++ concat lines)
      | _ => text <- print_value item ;; Ok (out ++ text ++ newline)
      end) [] properties_filtered.
End Report.
