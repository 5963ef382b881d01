(** C63: saved and printed results of an eye diagram. *)
From Coq Require Import String ZArith Reals Bool List Sorting.Sorted Lia Lra.
Import ListNotations.
From Verif Require Import Base PyStr StatsModel Pam2Model MaskModel EyeRunModel EyeRunProofs EyeReportProps EyeImageModel EyeImageSpec EyeImageProps ReportModel ReportSpec MaskProofs ReportProofs.
From Verif Require ImageModel.
Local Open Scope string_scope.
Local Open Scope list_scope.

(** ** The encoder *)
(** A value is written exactly when some JSON value stands for it and, with
    allow_nan=False, has finite numbers only; then that value is written. *)
Theorem C63_encoder : forall allow_nan o j,
  encode (depth o) allow_nan o = Ok j <-> represents o j /\ (allow_nan = false -> standard j).
Proof.
  intros allow_nan o j. split.
  - apply encode_sound.
  - intros [R S]. apply encode_complete; auto.
Qed.
(** Otherwise TypeError or ValueError is raised. *)
Theorem C63_encoder_errors : forall allow_nan o e, encode (depth o) allow_nan o = Err e -> e = TypeError \/ e = ValueError.
Proof.
  intros allow_nan o e E. destruct (encode_error _ _ _ _ E) as [->|H]; [|exact H]. exfalso. exact (encode_fuel allow_nan (depth o) o (le_n _) E).
Qed.
(** Nothing is lost: values written alike are equal up to the kind of number,
    text or sequence they are.  For values with uncertainty and numbers: *)
Theorem C63_readable : forall v s v' s' j,
  represents (OUncertain v s) j -> represents (OUncertain v' s') j -> v = v' /\ s = s'.
Proof. intros v s v' s' j R R'. inversion R; subst. inversion R'; subst. auto. Qed.
Example C63_encoder_witness : exists j,
  encode 5 true (ODict [(str "a", OList [ONpInt 3; ONone]); (str "b", OArray (ADim [ADim [AFloat PNan; AFloat (PReal 1)]]));
                        (str "c", OUncertain (PReal 2) (PReal 0))]) = Ok j /\
  encode 5 false (ODict [(str "b", OArray (ADim [ADim [AFloat PNan]]))]) = Err ValueError /\
  encode 5 true (OList [OOther (str "set")]) = Err TypeError.
Proof. eexists. repeat split. Qed.

(** ** Dictionaries *)
(** The dictionary has the public attributes that are no methods, each once, in
    alphabetical order, with their values; images only if they are wanted. *)
Theorem C63_dict : forall o exclude_images, exists d, to_dict o exclude_images = Ok d /\
  StronglySorted (fun a b => str_ltb a b = true) (map fst d) /\
  (forall name, In name (map fst d) <->
    (In name (map fst (instance o)) \/ In name (map fst (properties o))) /\ ~ In name (methods o) /\
    startswith (str "_") name = false /\ (exclude_images = true -> startswith (str "image") name = false)) /\
  (forall name x, In (name, x) d -> getattr o name = Ok x).
Proof.
  intros o ex. exists (dict_of o ex). split; [apply to_dict_list|]. rewrite dict_names. split; [apply sorted_filter, dir_sorted|]. split.
  - intros name. rewrite filter_In, dir_In. unfold shown. rewrite !andb_true_iff, !negb_true_iff, andb_false_iff.
    assert (M : is_method o name = false <-> ~ In name (methods o)).
    { rewrite <- is_method_In. destruct (is_method o name); intuition congruence. }
    rewrite M. destruct ex; intuition congruence.
  - intros name x I. unfold dict_of in I. apply in_map_iff in I. destruct I as (k & E & I). injection E as -> <-.
    apply filter_In in I. destruct I as [D S]. apply getattr_Ok; [exact D|]. unfold shown in S. destruct (is_method o name); [|reflexivity].
    rewrite andb_false_r in S. discriminate.
Qed.

(** ** Saving as JSON *)
Section Save.
Variable png64 : Z -> bitmap -> list Z.
Variable size : Z.
(** base64 is ASCII *)
Hypothesis ascii : forall b, Forall (fun c => 0 <= c < 128)%Z (png64 size b).

Theorem C63_save_json : forall m im filename exclude_images allow_nan fs r fs1,
  save_json (measures_object png64 size m im) filename exclude_images allow_nan fs = (r, fs1) ->
  (forall name, name <> filename -> fs1 name = fs name) /\
  (r = Ok tt <-> allow_nan = true \/ all_numbers m) /\
  (r = Ok tt -> exists doc, fs1 filename = Some (Document doc) /\ stores png64 size exclude_images m im doc /\
    (standard doc <-> all_numbers m)) /\
  (forall e, r = Err e -> e = ValueError /\ fs1 filename = Some Truncated).
Proof.
  intros m im filename ex allow fs r fs1 E. rewrite save_measures in E.
  set (o := measures_object png64 size m im) in *.
  assert (W : forall c name, name <> filename -> write fs filename c name = fs name).
  { intros c name N. unfold write. destruct (str_eqb name filename) eqn:Q; [apply eqb_eq in Q; congruence|reflexivity]. }
  assert (W' : forall c, write fs filename c filename = Some c) by (intros c; unfold write; rewrite eqb_refl; reflexivity).
  destruct (measures_encodable png64 size ascii m im ex) as [doc R]. fold o in R.
  assert (ST : standard doc <-> all_numbers m).
  { rewrite <- (measures_strict png64 size ascii m im ex). fold o. split; [intros S; exists doc; auto|].
    intros (j & R' & S). rewrite (represents_fun _ _ _ R R'). exact S. }
  destruct (encode _ allow (ODict (dict_of o ex))) as [doc'|e] eqn:EN; injection E as <- <-.
  - destruct (encode_sound _ _ _ _ EN) as [R' S]. pose proof (represents_fun _ _ _ R R') as <-.
    split; [apply W|]. split; [|split; [|discriminate]].
    + split; [|reflexivity]. intros _. destruct allow; [left; reflexivity|right]. apply ST, S. reflexivity.
    + intros _. exists doc. split; [apply W'|]. split; [|exact ST]. apply (doc_stores png64 size m im ex doc R).
  - split; [apply W|].
    assert (NS : allow = false /\ ~ all_numbers m).
    { destruct allow.
      - rewrite (encode_complete true _ _ doc R (le_n _)) in EN; discriminate.
      - split; [reflexivity|]. intros A. rewrite (encode_complete false _ _ doc R (le_n _)) in EN; [discriminate|]. intros _. apply ST, A. }
    destruct NS as [-> NS]. split; [|split; [discriminate|]].
    + split; [discriminate|]. intros [X|X]; [discriminate|contradiction].
    + intros e' E'. injection E' as <-. split; [|apply W'].
      destruct (C63_encoder_errors _ _ _ EN) as [->|H]; [|exact H].
      exfalso. apply (encode_type _ _ _ EN). exists doc. exact R.
Qed.
End Save.

(** ** Saving images *)
Definition image_files : list (string * (images -> image)) :=
  [(".clean.png", im_clean); (".grid.png", im_grid); (".mask.png", im_mask); (".hits.png", im_hits);
   (".mask_margin.png", im_margin)].
Definition stack_files : list (string * (images -> list image)) :=
  [(".png", fun im => [im_grid im; im_clean im; im_mask im; im_hits im]);
   (".margin.png", fun im => [im_grid im; im_clean im; im_margin im])].
(** Pixels with four channels and opacities between 0 and 1. *)
Definition rgba (size : Z) (im : image) : Prop :=
  forall row col, (0 <= row < size)%Z -> (0 <= col < size)%Z -> length (im row col) = 4%nat /\ opacities (im row col).

Lemma app_str_inj : forall (b : pystr) s s', b ++ str s = b ++ str s' -> str s = str s'.
Proof. intros b s s' E. apply app_inv_head in E. exact E. Qed.
Lemma write_same : forall fs n c, write fs n c n = Some c.
Proof. intros. unfold write. rewrite eqb_refl. reflexivity. Qed.
Lemma write_other : forall fs n c n', n' <> n -> write fs n c n' = fs n'.
Proof. intros fs n c n' N. unfold write. destruct (str_eqb n' n) eqn:Q; [apply eqb_eq in Q; congruence|reflexivity]. Qed.

Theorem C63_save_images : forall junk size im basename stack fs r fs1,
  save_images junk size (Some im) basename stack fs = (r, fs1) ->
  r = Ok tt /\
  (forall suffix f, In (suffix, f) image_files -> fs1 (basename ++ str suffix) = Some (Png size (to_bitmap (f im)))) /\
  (stack = true ->
    rgba size (im_clean im) -> rgba size (im_grid im) -> rgba size (im_mask im) -> rgba size (im_hits im) -> rgba size (im_margin im) ->
    forall suffix f, In (suffix, f) stack_files -> exists img,
      fs1 (basename ++ str suffix) = Some (Png size (to_bitmap img)) /\
      forall row col, (0 <= row < size)%Z -> (0 <= col < size)%Z -> shows (img row col) (map (fun layer : image => layer row col) (f im))) /\
  (forall name, (forall suffix f, In (suffix, f) image_files -> name <> basename ++ str suffix) ->
    (stack = true -> forall suffix f, In (suffix, f) stack_files -> name <> basename ++ str suffix) -> fs1 name = fs name).
Proof.
  intros junk size im basename stack fs r fs1 E. unfold save_images in E.
  assert (NE : forall s s', str s <> str s' -> basename ++ str s <> basename ++ str s') by (intros s s' N X; apply N, (app_str_inj _ _ _ X)).
  assert (RE : r = Ok tt) by (destruct stack; injection E as <- _; reflexivity). split; [exact RE|].
  unfold np_to_file in E. split; [|split].
  - intros suffix f I. unfold image_files, stack_files in I. cbn [In] in I.
    destruct stack; apply (f_equal snd) in E; cbn [snd] in E; subst fs1;
      (repeat (destruct I as [I|I]; [injection I as <- <-; repeat (first [apply write_same | rewrite write_other by (apply NE; discriminate)])|])); destruct I.
  - intros -> RC RG RM RH RB suffix f I. cbn [image_files stack_files In] in I. apply (f_equal snd) in E; cbn [snd] in E; subst fs1.
    assert (BASE : forall p, length p = 4%nat -> shows p [p]).
    { intros p L. split; [exact L|]. intros k K. unfold composite, over, layer_of. cbn [fold_left fst snd]. f_equal; lra. }
    assert (STEP : forall call b a (lb : image) layers,
      (forall row col, (0 <= row < size)%Z -> (0 <= col < size)%Z -> shows (b row col) (layers row col) /\ opacities (b row col)) -> rgba size a ->
      forall row col, (0 <= row < size)%Z -> (0 <= col < size)%Z ->
        shows (layer junk call b a row col) (layers row col ++ [a row col]) /\ opacities (layer junk call b a row col)).
    { intros call b a _ layers B A row col I1 I2. destruct (B row col I1 I2) as [S O]. destruct (A row col I1 I2) as [L OA]. apply layer_shows; assumption. }
    assert (S0 : forall row col, (0 <= row < size)%Z -> (0 <= col < size)%Z -> shows (im_grid im row col) [im_grid im row col] /\ opacities (im_grid im row col)).
    { intros row col I1 I2. destruct (RG row col I1 I2). split; [apply BASE|]; assumption. }
    destruct I as [I|[I|[]]]; injection I as <- <-.
    + eexists. split.
      * repeat (first [apply write_same | rewrite write_other by (apply NE; discriminate)]).
      * intros row col I1 I2.
        pose proof (STEP 0%nat _ _ (im_grid im) _ S0 RC) as S1. pose proof (STEP 1%nat _ _ (im_grid im) _ S1 RM) as S2. pose proof (STEP 2%nat _ _ (im_grid im) _ S2 RH) as S3.
        apply (S3 row col I1 I2).
    + eexists. split.
      * repeat (first [apply write_same | rewrite write_other by (apply NE; discriminate)]).
      * intros row col I1 I2.
        pose proof (STEP 3%nat _ _ (im_grid im) _ S0 RC) as S1. pose proof (STEP 4%nat _ _ (im_grid im) _ S1 RB) as S2. apply (S2 row col I1 I2).
  - intros name N1 N2.
    assert (M1 : name <> basename ++ str ".clean.png") by (apply (N1 _ im_clean); unfold image_files; cbn [In]; tauto).
    assert (M2 : name <> basename ++ str ".grid.png") by (apply (N1 _ im_grid); unfold image_files; cbn [In]; tauto).
    assert (M3 : name <> basename ++ str ".mask.png") by (apply (N1 _ im_mask); unfold image_files; cbn [In]; tauto).
    assert (M4 : name <> basename ++ str ".hits.png") by (apply (N1 _ im_hits); unfold image_files; cbn [In]; tauto).
    assert (M5 : name <> basename ++ str ".mask_margin.png") by (apply (N1 _ im_margin); unfold image_files; cbn [In]; tauto).
    destruct stack; apply (f_equal snd) in E; cbn [snd] in E; subst fs1.
    + assert (M6 : name <> basename ++ str ".png") by (eapply (N2 eq_refl); unfold stack_files; left; reflexivity).
      assert (M7 : name <> basename ++ str ".margin.png") by (eapply (N2 eq_refl); unfold stack_files; right; left; reflexivity).
      rewrite !write_other by assumption. reflexivity.
    + rewrite !write_other by assumption. reflexivity.
Qed.
(** Without images (before a calculation) TypeError is raised and nothing is
    written. *)
Theorem C63_save_no_images : forall junk size basename stack fs, save_images junk size None basename stack fs = (Err TypeError, fs).
Proof. reflexivity. Qed.
(** What shows where layers are opaque or transparent: the topmost opaque one. *)
Theorem C63_topmost : forall p below q above, shows p (below ++ q :: above) -> alpha q = 1%R ->
  Forall (fun l => alpha l = 0%R) above -> alpha p = 1%R /\ forall k, (k < 3)%nat -> nth k p 0%R = nth k q 0%R.
Proof.
  intros p below q above [_ S] Q F.
  assert (C : forall k, composite k (below ++ q :: above) = (1, nth k q 0)%R).
  { intros k. unfold composite. rewrite fold_left_app. cbn [fold_left]. set (acc := fold_left _ below _).
    replace (over acc (layer_of k q)) with (1, nth k q 0)%R by (unfold over, layer_of; rewrite Q; cbn; f_equal; lra).
    clear - F. induction F as [|l above A _ IH]; [reflexivity|]. cbn [fold_left].
    replace (over (1, nth k q 0)%R (layer_of k l)) with (1, nth k q 0)%R by (unfold over, layer_of; rewrite A; cbn; f_equal; lra). exact IH. }
  assert (A : alpha p = 1%R). { pose proof (S 0%nat ltac:(lia)) as S0. rewrite C in S0. unfold layer_of in S0. congruence. }
  split; [exact A|]. intros k K. specialize (S k K). rewrite C in S. unfold layer_of in S. rewrite A in S.
  assert (X : (1 * nth k p 0 = nth k q 0)%R) by congruence. lra.
Qed.
Theorem C63_invisible : forall p layers, shows p layers -> Forall (fun l => alpha l = 0%R) layers -> alpha p = 0%R.
Proof.
  intros p layers [_ S] F. specialize (S 0%nat ltac:(lia)).
  assert (C : composite 0 layers = (0, 0)%R).
  { unfold composite. clear S. induction F as [|l above A _ IH]; [reflexivity|]. cbn [fold_left].
    replace (over (0, 0)%R (layer_of 0 l)) with (0, 0)%R by (unfold over, layer_of; rewrite A; cbn; f_equal; lra). exact IH. }
  rewrite C in S. unfold layer_of in S. congruence.
Qed.

(** ** Printing *)
Theorem C63_print : forall format_float str_float shape_text dtype_text png64 size m im,
  bathtub_curve m <> Some [] ->
  exists values, printed format_float m values /\
    pretty_print format_float str_float shape_text dtype_text (measures_object png64 size m im) =
      Ok (concat (map (fun nv => report_line 16 (fst nv) (snd nv)) values)).
Proof.
  intros ff sf st dt png64 size m im N. exists (values ff sf st dt png64 size m im). split; [apply measures_printed; assumption|].
  rewrite pretty_print_Ok by (apply public_nonempty; assumption). rewrite public_width. unfold values. rewrite map_map. reflexivity.
Qed.
(** An empty dictionary among the attributes makes pretty_print fail. *)
Theorem C63_print_empty_refuted : forall format_float str_float shape_text dtype_text,
  exists o, (exists d, to_dict o false = Ok d /\ In (str "curves", ODict []) d) /\
    pretty_print format_float str_float shape_text dtype_text o = Err ValueError.
Proof.
  intros. exists (PyObject [(str "curves", ODict []); (str "n_sym", OInt 3)] [str "to_dict"] []). split; [|reflexivity].
  eexists. split; [reflexivity|left; reflexivity].
Qed.
(** Formatting a value with uncertainty: the same specification for the value
    and the standard deviation; text specifications are refused. *)
Theorem C63_format : forall format_float str_float v s spec,
  (spec = [] -> format_uncertain format_float str_float spec v s =
     Ok (str "(" ++ [181%Z] ++ str "=" ++ str_float v ++ str "," ++ [963%Z] ++ str "=" ++ str_float s ++ str ")")) /\
  (forall start c, spec = start ++ [c] -> In c (str "0123456789eEgGfFn%") -> format_uncertain format_float str_float spec v s =
     Ok (str "(" ++ [181%Z] ++ str "=" ++ format_float spec v ++ str "," ++ [963%Z] ++ str "=" ++ format_float spec s ++ str ")")) /\
  (forall start c, spec = start ++ [c] -> ~ In c (str "0123456789eEgGfFn%") -> format_uncertain format_float str_float spec v s = Err TypeError).
Proof.
  intros ff sf v s spec. split; [intros ->; reflexivity|]. split; intros start c -> I; unfold format_uncertain; rewrite rev_app_distr; cbn [rev app].
  - replace (existsb (Z.eqb c) understood) with true; [reflexivity|]. symmetry. apply existsb_exists. exists c. split; [exact I|apply Z.eqb_refl].
  - replace (existsb (Z.eqb c) understood) with false; [reflexivity|]. symmetry. apply not_true_is_false. intros X. apply existsb_exists in X.
    destruct X as (x & X & E). apply Z.eqb_eq in E. subst. contradiction.
Qed.

(** ** Completed calculations *)
Section Calculated.
Variable round6 : R -> R.
Variable fit : nat -> list R -> result (list (R * R * R)).
Variable aic : list (R * R * R) -> list R -> R.
Variable new_cdr : R -> cdr.
Variable percentile : list R -> R -> R.
Variable cast : R -> Z.
Variable fuel : nat.
Variable draw : drawing.
Let completed := completed round6 fit aic new_cdr percentile cast fuel draw.
Variable png64 : Z -> bitmap -> list Z.
Hypothesis ascii : forall size b, Forall (fun c => 0 <= c < 128)%Z (png64 size b).

Lemma completed_shape d e m e1 edges t : completed d e m e1 edges t ->
  if c_skip_measures (e_config e) then in_y m = None /\ in_t m = None /\ bathtub_curve m = None
  else in_y m <> None /\ in_t m <> None /\ exists c, bathtub_curve m = Some [c].
Proof.
  intros C. destruct (pictured _ _ _ _ _ _ _ _ _ _ _ _ _ _ C) as (l & centers & w & t0 & dirs & yz & ua & syms & im & pr & T & FL & SA & W & T0 & ME & _).
  unfold measured in ME. destruct (c_skip_measures (e_config e)).
  - injection ME as <- _ _ _. repeat split.
  - destruct (collect _ _) as [vs failed]. apply bind_ok in ME. destruct ME as (? & _ & ME). cbv zeta in ME.
    apply bind_ok in ME. destruct ME as (m0 & _ & ME). apply bind_ok in ME. destruct ME as (amp & _ & ME).
    destruct (update_levels _ _ _ _ _ _ _) as [[a b] c]. apply bind_ok in ME. destruct ME as (yc & _ & ME).
    apply bind_ok in ME. destruct ME as (h & _ & ME). apply bind_ok in ME. destruct ME as ([[[o1 o2] mg] bad] & _ & ME).
    apply bind_ok in ME. destruct ME as (curves & BC & ME). injection ME as <- _ _ _. cbn [in_y in_t bathtub_curve].
    split; [discriminate|]. split; [discriminate|].
    unfold EyeModel.bathtub_curves in BC. apply bind_ok in BC. destruct BC as (out & _ & BC). cbn [length seq mapM] in BC.
    match type of BC with match ?x with _ => _ end = _ => destruct x as [c0|]; [|discriminate] end. injection BC as <-. exists c0. reflexivity.
Qed.

(** The file saved after a completed calculation holds its results. *)
Theorem C63_calculated d e m e1 edges t : completed d e m e1 edges t ->
  exists im, get_images e1 = Ok (Some im) /\ forall filename exclude_images fs,
    exists doc fs1, save_json (measures_object png64 (e_resolution e) m (Some im)) filename exclude_images true fs = (Ok tt, fs1) /\
      fs1 filename = Some (Document doc) /\ stores png64 (e_resolution e) exclude_images m (Some im) doc.
Proof.
  intros C. destruct (pictured _ _ _ _ _ _ _ _ _ _ _ _ _ _ C) as (l & centers & w & t0 & dirs & yz & ua & syms & im & pr & T & FL & SA & W & T0 & ME & HM & HP & IM & _).
  exists im. split; [exact IM|]. intros filename ex fs.
  destruct (save_json (measures_object png64 (e_resolution e) m (Some im)) filename ex true fs) as [r fs1] eqn:E.
  destruct (C63_save_json png64 (e_resolution e) (ascii _) m (Some im) filename ex true fs r fs1 E) as (_ & OK & DOC & _).
  assert (R : r = Ok tt) by (apply OK; left; reflexivity). destruct (DOC R) as (doc & F & ST & _). exists doc, fs1. subst r. auto.
Qed.
(** Without a mask the margin is nan: saving as standard JSON fails and loses the
    file that was there. *)
Theorem C63_failed_save_keeps_file_refuted d e m e1 edges t : completed d e m e1 edges t ->
  e_mask e = None -> c_skip_measures (e_config e) = false ->
  forall im filename exclude_images fs, exists fs1,
    save_json (measures_object png64 (e_resolution e) m im) filename exclude_images false fs = (Err ValueError, fs1) /\
    fs1 filename = Some Truncated.
Proof.
  intros C NM SK im filename ex fs.
  destruct (save_json (measures_object png64 (e_resolution e) m im) filename ex false fs) as [r fs1] eqn:E.
  destruct (C63_save_json png64 (e_resolution e) (ascii _) m im filename ex false fs r fs1 E) as (_ & OK & _ & BAD).
  destruct (C58_mask _ _ _ _ _ _ _ _ _ _ _ _ _ _ C) as [[MM _] _]; [left; exact NM|].
  pose proof (completed_shape _ _ _ _ _ _ C) as SH. rewrite SK in SH. destruct SH as (_ & IT & _).
  exists fs1. destruct r as [[]|x].
  - exfalso. destruct (proj1 OK eq_refl) as [X|(_ & _ & _ & X)]; [discriminate|]. destruct (X IT) as [Y _]. contradiction.
  - destruct (BAD x eq_refl) as [-> F]. auto.
Qed.
(** The results of a completed calculation can be printed. *)
Theorem C63_calculated_print d e m e1 edges t : completed d e m e1 edges t ->
  forall format_float str_float shape_text dtype_text size im, exists values, printed format_float m values /\
    pretty_print format_float str_float shape_text dtype_text (measures_object png64 size m im) =
      Ok (concat (map (fun nv => report_line 16 (fst nv) (snd nv)) values)).
Proof.
  intros C ff sf st dt size im. apply C63_print. pose proof (completed_shape _ _ _ _ _ _ C) as SH.
  destruct (c_skip_measures (e_config e)); destruct SH as (_ & _ & SH); [rewrite SH; discriminate|destruct SH as [c SH]; rewrite SH; discriminate].
Qed.
(** The stacked images saved after a completed calculation show the grid, above it
    the waveform and above that the mask with its hits, or the mask with margin. *)
Lemma stable (A G : Prop) : {G} + {~ G} -> (A -> G) -> (~ A -> G) -> G.
Proof. intros [g|n] P N; [exact g|]. exfalso. apply n, N. intros a. apply n, P, a. Qed.
Lemma rgba_dec (p : list R) : {length p = 4%nat /\ opacities p} + {~ (length p = 4%nat /\ opacities p)}.
Proof.
  destruct (Nat.eq_dec (length p) 4) as [L|L]; [|right; tauto].
  destruct (Rle_dec 0 (alpha p)) as [A|A]; [|right; unfold opacities; tauto].
  destruct (Rle_dec (alpha p) 1) as [B|B]; [left|right]; unfold opacities; tauto.
Qed.
Theorem C63_calculated_images d e m e1 edges t : completed d e m e1 edges t ->
  fair (line_aa draw) -> (forall v, (0 < v <= 1)%R -> length (jet draw v) = 4%nat /\ opacities (jet draw v)) ->
  exists im, get_images e1 = Ok (Some im) /\ forall junk basename fs r fs1,
    save_images junk (e_resolution e) (Some im) basename true fs = (r, fs1) ->
    r = Ok tt /\ forall suffix f, In (suffix, f) stack_files -> exists img,
      fs1 (basename ++ str suffix) = Some (Png (e_resolution e) (to_bitmap img)) /\
      forall row col, in_image (e_resolution e) row col -> shows (img row col) (map (fun layer : image => layer row col) (f im)).
Proof.
  intros C FA JET. destruct (C62_clean _ _ _ _ _ _ _ _ _ _ _ _ _ _ C) as (im & h & IM & _ & CL). exists im. split; [exact IM|].
  destruct (C62_grid _ _ _ _ _ _ _ _ _ _ _ _ _ _ C) as (im' & IM' & GR). rewrite IM in IM'. injection IM' as <-.
  assert (O0 : forall p, p = [0; 0; 0; 0]%R -> length p = 4%nat /\ opacities p) by (intros p ->; split; [reflexivity|unfold opacities, alpha; cbn; lra]).
  assert (RC : rgba (e_resolution e) (im_clean im)).
  { intros row col I1 I2. destruct (CL row col (conj I1 I2)) as (P & Z0 & NZ). destruct (Req_EM_T (h row col) 0) as [Z|Z]; [apply O0, Z0, Z|].
    destruct (NZ Z) as (top & _ & B & ->). apply JET, B. }
  assert (RG : rgba (e_resolution e) (im_grid im)).
  { intros row col I1 I2. destruct (GR row col (conj I1 I2)) as (A & B).
    assert (OG : forall p x, (0 <= x <= 1)%R -> p = [1; 1; 0; x]%R -> length p = 4%nat /\ opacities p) by (intros p x X ->; split; [reflexivity|exact X]).
    refine (stable _ _ (rgba_dec _) (fun a => OG _ _ _ (A a)) (fun n => OG _ _ _ (B n))); lra. }
  assert (R3 : rgba (e_resolution e) (im_mask im) /\ rgba (e_resolution e) (im_hits im) /\ rgba (e_resolution e) (im_margin im)).
  { assert (NO : e_mask e = None \/ c_skip_measures (e_config e) = true -> rgba (e_resolution e) (im_mask im) /\ rgba (e_resolution e) (im_hits im) /\ rgba (e_resolution e) (im_margin im)).
    { intros NM. destruct (C62_no_mask _ _ _ _ _ _ _ _ _ _ _ _ _ _ C NM) as (im' & IM' & Z). rewrite IM in IM'. injection IM' as <-.
      repeat split; try (destruct (Z row col) as (Z1 & Z2 & Z3); first [rewrite Z1 | rewrite Z2 | rewrite Z3]; first [reflexivity | unfold alpha; cbn; lra]). }
    destruct (e_mask e) as [mk|] eqn:MK; [|apply NO; left; reflexivity]. destruct (c_skip_measures (e_config e)) eqn:SK; [apply NO; right; reflexivity|]. clear NO.
    destruct (C62_mask _ _ _ _ _ _ _ _ _ _ _ _ _ _ mk C MK SK) as (im' & ? & ? & ? & ? & paths & ? & adj & IM' & _ & _ & _ & _ & _ & _ & MA). rewrite IM in IM'. injection IM' as <-.
    destruct (C62_hits _ _ _ _ _ _ _ _ _ _ _ _ _ _ mk C MK SK FA) as (im' & ? & ? & ? & ? & ? & ? & ? & IM' & _ & _ & _ & _ & _ & _ & _ & _ & _ & HI). rewrite IM in IM'. injection IM' as <-.
    assert (OM : forall p, p = [1; 0; 1; 1 / 2]%R -> length p = 4%nat /\ opacities p) by (intros p ->; split; [reflexivity|unfold opacities, alpha; cbn; lra]).
    split; [|split]; intros row col I1 I2.
    - destruct (MA row col) as (A & B & _). apply (stable _ _ (rgba_dec _) (fun a => OM _ (A a)) (fun n => O0 _ (B n))).
    - destruct (HI row col (conj I1 I2)) as (L & O & _). split; assumption.
    - destruct (MA row col) as (_ & _ & A & B). apply (stable _ _ (rgba_dec _) (fun a => OM _ (A a)) (fun n => O0 _ (B n))). }
  destruct R3 as (RM & RH & RB). intros jk basename fs r fs1 E.
  destruct (C63_save_images _ _ _ _ _ _ _ _ E) as (R & _ & ST & _). split; [exact R|]. intros suffix f I.
  destruct (ST eq_refl RC RG RM RH RB suffix f I) as (img & F & SH). exists img. split; [exact F|]. intros row col (I1 & I2). apply SH; assumption.
Qed.
End Calculated.

(** The table of the measures is not empty of content: a calculation with a value
    for each measure meets [all_numbers], one without a mask does not. *)
Definition some_u : option uvalue := Some (UV 1 2).
Definition full_measures (margin : option R) : measures :=
  Measures 10 40 (fun q => if fst (fst q) then 2 else 3)%Z
    (Some (MeasuresY some_u some_u some_u some_u some_u some_u some_u some_u some_u some_u some_u some_u some_u some_u))
    (Some (MeasuresT some_u some_u some_u some_u some_u some_u some_u some_u some_u some_u some_u some_u some_u some_u some_u (Some 1%R) (Some 2%R)))
    margin (Some 4%nat) (Some [([0; 1], [1; 1])%R]).
Example C63_numbers_witness : all_numbers (full_measures (Some (1 / 2)%R)) /\ ~ all_numbers (full_measures None).
Proof.
  split.
  - split; [|split; [|split]].
    + intros y name f Y I. injection Y as <-. unfold y_measures in I. cbn [In] in I.
      repeat (destruct I as [I|I]; [injection I as <- <-; discriminate|]). destruct I.
    + intros y name f Y I. injection Y as <-. unfold t_measures in I. cbn [In] in I.
      repeat (destruct I as [I|I]; [injection I as <- <-; discriminate|]). destruct I.
    + intros y name f Y I. injection Y as <-. unfold jitters in I. cbn [In] in I.
      repeat (destruct I as [I|I]; [injection I as <- <-; discriminate|]). destruct I.
    + intros _. split; discriminate.
  - intros (_ & _ & _ & M). destruct (M ltac:(discriminate)) as [X _]. apply X. reflexivity.
Qed.
(** An encoding of images as ASCII text exists, and images as [rgba] asks. *)
Example C63_ascii_witness : exists png64 : Z -> bitmap -> list Z, forall size b, Forall (fun c => 0 <= c < 128)%Z (png64 size b).
Proof. exists (fun _ _ => [65; 66]%Z). intros. constructor; [lia|]. constructor; [lia|constructor]. Qed.
Example C63_rgba_witness : forall size, rgba size (fun row col => [1; 0; 0; if (row =? col)%Z then 1 / 2 else 0])%R.
Proof. intros size row col _ _. split; [reflexivity|]. unfold opacities, alpha. cbn. destruct (row =? col)%Z; lra. Qed.

Print Assumptions C63_encoder.
Print Assumptions C63_encoder_errors.
Print Assumptions C63_readable.
Print Assumptions C63_dict.
Print Assumptions C63_save_json.
Print Assumptions C63_save_images.
Print Assumptions C63_save_no_images.
Print Assumptions C63_topmost.
Print Assumptions C63_invisible.
Print Assumptions C63_print.
Print Assumptions C63_print_empty_refuted.
Print Assumptions C63_format.
Print Assumptions C63_calculated.
Print Assumptions C63_calculated_images.
Print Assumptions C63_failed_save_keeps_file_refuted.
Print Assumptions C63_calculated_print.
