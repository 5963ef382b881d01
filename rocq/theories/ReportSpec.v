(** What reports of an eye diagram have to contain: vocabulary for ReportProps.v. *)
From Coq Require Import String ZArith Reals Bool List Sorting.Sorted.
Import ListNotations.
From Verif Require Import Base PyStr StatsModel Pam2Model EyeRunModel EyeImageModel ReportModel.
Local Open Scope string_scope.
Local Open Scope list_scope.

(** The pairs of a dictionary. *)
Inductive entries {X Y} (r : X -> Y -> Prop) : list (pystr * X) -> list (pystr * Y) -> Prop :=
| Entries_nil : entries r [] []
| Entries_cons : forall k x y l l', r x y -> entries r l l' -> entries r ((k, x) :: l) ((k, y) :: l').

(** The nested lists of an array. *)
Inductive listed : ndarray -> jvalue -> Prop :=
| Listed_float : forall x, listed (AFloat x) (JFloat x)
| Listed_dim : forall l l', Forall2 listed l l' -> listed (ADim l) (JArray l').

(** [represents o j]: the JSON value j stands for the Python value o. *)
Inductive represents : obj -> jvalue -> Prop :=
| Rep_none : represents ONone JNull
| Rep_int : forall n, represents (OInt n) (JInt n)
| Rep_float : forall x, represents (OFloat x) (JFloat x)
| Rep_str : forall s, represents (OStr s) (JText s)
| Rep_bytes : forall b, Forall (fun c => 0 <= c < 128)%Z b -> represents (OBytes b) (JText b)
| Rep_list : forall l l', Forall2 represents l l' -> represents (OList l) (JArray l')
| Rep_dict : forall l l', entries represents l l' -> represents (ODict l) (JObject l')
| Rep_uncertain : forall v s,
    represents (OUncertain v s)
      (JObject [(str "__type__", JText (str "UncertainValue")); (str "value", JFloat v); (str "stddev", JFloat s)])
| Rep_npint : forall n, represents (ONpInt n) (JInt n)
| Rep_npfloat : forall x, represents (ONpFloat x) (JFloat x)
| Rep_array : forall a j, listed a j -> represents (OArray a) j.

(** A document that follows the JSON standard: all its numbers are finite. *)
Inductive standard : jvalue -> Prop :=
| Std_null : standard JNull
| Std_int : forall n, standard (JInt n)
| Std_float : forall x, standard (JFloat (PReal x))
| Std_text : forall s, standard (JText s)
| Std_array : forall l, Forall standard l -> standard (JArray l)
| Std_object : forall l, Forall (fun kv => standard (snd kv)) l -> standard (JObject l).

(** The value a document stores under a name. *)
Definition field (doc : jvalue) (name : pystr) : option jvalue :=
  match doc with
  | JObject l => option_map snd (find (fun kv => if list_eq_dec Z.eq_dec (fst kv) name then true else false) l)
  | _ => None
  end.
Definition names_of (doc : jvalue) : list pystr := match doc with JObject l => map fst l | _ => [] end.

(** The measures with uncertainty: names of the attributes and where they are
    among the results of a calculation. *)
Definition y_measures : list (string * (measures_y -> option uvalue)) :=
  [("y_0", m_y_0); ("y_1", m_y_1); ("y_cross", m_y_cross); ("y_cross_r", m_y_cross_r); ("y_avg", m_y_avg);
   ("y_0_cross", m_y_0_cross); ("y_1_cross", m_y_1_cross); ("amp", m_amp); ("height", m_height);
   ("height_r", m_height_r); ("snr", m_snr); ("extinction_ratio", m_extinction_ratio); ("oma_cross", m_oma_cross);
   ("vecp", m_vecp)].
Definition t_measures : list (string * (measures_t -> option uvalue)) :=
  [("t_sym", m_t_sym); ("t_0", m_t_0); ("t_1", m_t_1); ("t_0_start", m_t_0_start); ("t_1_start", m_t_1_start);
   ("t_rise", m_t_rise); ("t_fall", m_t_fall); ("t_rise_start", m_t_rise_start); ("t_fall_start", m_t_fall_start);
   ("t_cross", m_t_cross); ("f_sym", m_f_sym); ("width", m_width); ("width_r", m_width_r); ("dcd", m_dcd);
   ("dcd_r", m_dcd_r)].
Definition jitters : list (string * (measures_t -> option R)) :=
  [("jitter_pp", m_jitter_pp); ("jitter_rms", m_jitter_rms)].
Definition image_names : list (string * (images -> image)) :=
  [("image_clean", im_clean); ("image_grid", im_grid); ("image_mask", im_mask); ("image_hits", im_hits);
   ("image_margin", im_margin)].
Definition other_names : list string :=
  ["n_samples"; "n_sym"; "n_sym_bad"; "mask_margin"; "transition_dist"; "bathtub_curves"].
(** Every public attribute of the measures of a PAM2 eye diagram. *)
Definition report_names (exclude_images : bool) : list string :=
  map fst y_measures ++ map fst t_measures ++ map fst jitters ++ other_names ++
  (if exclude_images then [] else map fst image_names).

(** A number or nan. *)
Definition number (x : option R) : pfloat := match x with Some x => PReal x | None => PNan end.
(** The document holds a value with its standard deviation. *)
Definition stores_uncertain (j : jvalue) (u : option uvalue) : Prop :=
  field j (str "__type__") = Some (JText (str "UncertainValue")) /\
  field j (str "value") = Some (JFloat (number (option_map value u))) /\
  field j (str "stddev") = Some (JFloat (number (option_map stddev u))).
Definition bit (b : bool) : string := if b then "1" else "0".

(** [stores png64 size exclude m im doc]: the document holds the measures m and
    the images im, under the names of the attributes. *)
Record stores (png64 : Z -> bitmap -> list Z) (size : Z) (exclude_images : bool) (m : measures) (im : option images)
    (doc : jvalue) : Prop := {
  stored_names : forall name, In name (names_of doc) <-> exists s, In s (report_names exclude_images) /\ name = str s;
  stored_once : NoDup (names_of doc);
  stored_y : forall name f, In (name, f) y_measures ->
    exists j, field doc (str name) = Some j /\
      match in_y m with Some y => stores_uncertain j (f y) | None => j = JNull end;
  stored_t : forall name f, In (name, f) t_measures ->
    exists j, field doc (str name) = Some j /\
      match in_t m with Some t => stores_uncertain j (f t) | None => j = JNull end;
  stored_jitter : forall name f, In (name, f) jitters ->
    field doc (str name) = Some (match in_t m with Some t => JFloat (number (f t)) | None => JNull end);
  stored_n_samples : field doc (str "n_samples") = Some (JInt (n_samples m));
  stored_n_sym : field doc (str "n_sym") = Some (JInt (n_sym m));
  stored_n_sym_bad : field doc (str "n_sym_bad") =
    Some (match in_t m, n_sym_bad m with
          | Some _, Some n => JInt (Z.of_nat n) | Some _, None => JFloat PNan | None, _ => JNull end);
  stored_margin : field doc (str "mask_margin") =
    Some (match in_t m with Some _ => JFloat (number (mask_margin m)) | None => JNull end);
  stored_transitions : exists j, field doc (str "transition_dist") = Some j /\
    forall a b c, field j (str (bit a ++ bit b ++ bit c)) = Some (JInt (transition_dist m (a, b, c)));
  stored_bathtub : exists j, field doc (str "bathtub_curves") = Some j /\
    match bathtub_curve m with
    | None => j = JNull
    | Some [] => j = JObject []
    | Some ((ts, bers) :: _) =>
        j = JObject [(str "Eye 0", JArray [JArray (map (fun t => JFloat (PReal t)) ts);
                                           JArray (map (fun b => JFloat (PReal b)) bers)])]
    end;
  stored_images : exclude_images = false -> forall name f, In (name, f) image_names ->
    field doc (str name) =
      Some (match im with Some im => JText (png64 size (to_bitmap (f im))) | None => JNull end) }.

(** All that a calculation reports is numbers. *)
Definition all_numbers (m : measures) : Prop :=
  (forall y name f, in_y m = Some y -> In (name, f) y_measures -> f y <> None) /\
  (forall t name f, in_t m = Some t -> In (name, f) t_measures -> f t <> None) /\
  (forall t name f, in_t m = Some t -> In (name, f) jitters -> f t <> None) /\
  (in_t m <> None -> mask_margin m <> None /\ n_sym_bad m <> None).

(** Opacity of a pixel and the colours of one opaque pixel over another. *)
Definition alpha (p : list R) : R := nth 3 p 0%R.

(** Stacking images: the opacity and the colours, weighted with the opacity, of
    layers listed from the bottom to the top. *)
Definition over (below above : R * R) : R * R :=
  (fst above + fst below * (1 - fst above), snd above + snd below * (1 - fst above))%R.
Definition layer_of (k : nat) (p : list R) : R * R := (alpha p, alpha p * nth k p 0)%R.
Definition composite (k : nat) (layers : list (list R)) : R * R :=
  fold_left (fun acc p => over acc (layer_of k p)) layers (0, 0)%R.
(** A pixel shows layers: it has their opacity and, weighted, their colours. *)
Definition shows (p : list R) (layers : list (list R)) : Prop :=
  length p = 4%nat /\ forall k, (k < 3)%nat -> layer_of k p = composite k layers.
Definition opacities (p : list R) : Prop := (0 <= alpha p <= 1)%R.

(** Lines of a printed report: the name, padded to a common width, and the value. *)
Definition report_line (width : nat) (name value : pystr) : pystr :=
  name ++ repeat 32%Z (width - length name) ++ str ": " ++ value ++ [10%Z].
(** mu is 181, sigma 963 *)
Definition uncertain_text (format_float : pystr -> pfloat -> pystr) (u : option uvalue) : pystr :=
  str "(" ++ [181%Z] ++ str "=" ++ format_float (str "10.3G") (number (option_map value u)) ++
  str "," ++ [963%Z] ++ str "=" ++ format_float (str "10.3G") (number (option_map stddev u)) ++ str ")".
Definition unknown : pystr := str "[Unknown, type=NoneType]".
Definition integer_text (n : Z) : pystr := repeat 32%Z (10 - length (str_int n)) ++ str_int n.

Record printed (format_float : pystr -> pfloat -> pystr) (m : measures) (values : list (pystr * pystr)) : Prop := {
  printed_sorted : StronglySorted (fun a b => str_ltb a b = true) (map fst values);
  printed_names : forall name, In name (map fst values) <-> exists s, In s (report_names false) /\ name = str s;
  printed_y : forall name f, In (name, f) y_measures ->
    In (str name, match in_y m with Some y => uncertain_text format_float (f y) | None => unknown end) values;
  printed_t : forall name f, In (name, f) t_measures ->
    In (str name, match in_t m with Some t => uncertain_text format_float (f t) | None => unknown end) values;
  printed_jitter : forall name f, In (name, f) jitters ->
    In (str name, match in_t m with Some t => format_float (str "10.3G") (number (f t)) | None => unknown end) values;
  printed_n_samples : In (str "n_samples", integer_text (n_samples m)) values;
  printed_n_sym : In (str "n_sym", integer_text (n_sym m)) values;
  printed_n_sym_bad : In (str "n_sym_bad",
    match in_t m, n_sym_bad m with
    | Some _, Some n => integer_text (Z.of_nat n)
    | Some _, None => format_float (str "10.3G") PNan
    | None, _ => unknown
    end) values;
  printed_margin : In (str "mask_margin",
    match in_t m with Some _ => format_float (str "10.3G") (number (mask_margin m)) | None => unknown end) values;
  printed_transitions : exists v, In (str "transition_dist", v) values /\
    v ++ [10%Z] = [10%Z] ++ concat (map (fun q => str "  " ++ str q ++ str ": " ++ integer_text
        (transition_dist m (match q with
                            | "000" => (false, false, false) | "001" => (false, false, true)
                            | "010" => (false, true, false) | "011" => (false, true, true)
                            | "100" => (true, false, false) | "101" => (true, false, true)
                            | "110" => (true, true, false) | _ => (true, true, true)
                            end)) ++ [10%Z])
      ["000"; "001"; "010"; "011"; "100"; "101"; "110"; "111"]);
  printed_images : forall name f, In (name, f) image_names -> In (str name, str "[Image]") values }.
