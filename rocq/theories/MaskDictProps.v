(** C64: masks as dictionaries. *)
From Coq Require Import String List ZArith Bool Reals Lra.
Import ListNotations.
From Verif Require Import Base Num PyStr MaskModel MaskProofs MaskDictModel MaskDictSpec.
Local Open Scope R_scope.

Definition plain (m : @mixed R) : Prop := exists a, m = Plain a.
Lemma convert_plain (m c : @mixed R) u : convert m u = Ok c -> plain c.
Proof. unfold convert. destruct m; intros E; [injection E as <-; eexists; reflexivity|]. apply bind_ok in E. destruct E as (v & _ & E). injection E as <-. eexists; reflexivity. Qed.
Lemma convert_of_plain (m : @mixed R) u : plain m -> convert m u = Ok m.
Proof. intros (a & ->). reflexivity. Qed.
Lemma val_plain (m : @mixed R) : val (Plain (val m)) = val m. Proof. reflexivity. Qed.

Lemma remade_hex (m r : @hexagon R) : remade_hexagon (hex_to_dict m) r ->
  r = Hexagon (Plain (val (hx1 m))) (Plain (val (hx2 m))) (Plain (val (hy1 m))) (Plain (val (hyl m))) (Plain (val (hyu m))) true false.
Proof. intros (_ & x1 & x2 & y1 & yl & yu & E1 & E2 & E3 & E4 & E5 & ->). injection E1 as <-. injection E2 as <-. injection E3 as <-. injection E4 as <-. injection E5 as <-. reflexivity. Qed.
Lemma remade_dec (m r : @decagon R) : remade_decagon (dec_to_dict m) r ->
  r = Decagon (Plain (val (dx1 m))) (Plain (val (dx2 m))) (Plain (val (dx3 m))) (Plain (val (dy1 m))) (Plain (val (dy2 m))) (Plain (val (dyl m))) (Plain (val (dyu m))) true false.
Proof.
  intros (_ & x1 & x2 & x3 & y1 & y2 & yl & yu & E1 & E2 & E3 & E4 & E5 & E6 & E7 & ->).
  injection E1 as <-. injection E2 as <-. injection E3 as <-. injection E4 as <-. injection E5 as <-. injection E6 as <-. injection E7 as <-. reflexivity.
Qed.

(** A mask can be made from every dictionary. *)
Theorem C64_remakes : (forall m, exists r, remade_hexagon (hex_to_dict m) r) /\ (forall m, exists r, remade_decagon (dec_to_dict m) r).
Proof. split; intros m; eexists; (split; [reflexivity|]); repeat eexists. Qed.

(** From the dictionary of a mask with known outline, a mask of the same outline
    is made, whatever amplitude and interval are given later. *)
Theorem C64_converted : 
  (forall m paths r ua ui, hex_get_paths m = Ok paths -> remade_hexagon (hex_to_dict m) r -> hex_outline r ua ui paths) /\
  (forall m paths r ua ui, dec_get_paths m = Ok paths -> remade_decagon (dec_to_dict m) r -> dec_outline r ua ui paths).
Proof.
  split; intros m paths r ua ui P M.
  - rewrite (remade_hex _ _ M). eexists. split; [reflexivity|]. unfold hex_get_paths, get_paths in *  . destruct (hconv m); [|discriminate].
    injection P as <-. reflexivity.
  - rewrite (remade_dec _ _ M). eexists. split; [reflexivity|]. unfold dec_get_paths, get_paths in *  . destruct (dconv m); [|discriminate].
    injection P as <-. reflexivity.
Qed.
(** The same of masks before conversion whose numbers are all plain and which
    count from zero. *)
Theorem C64_plain :
  (forall m paths r ua ui, plain (hx1 m) -> plain (hx2 m) -> plain (hy1 m) -> plain (hyl m) -> plain (hyu m) -> hzero m = true ->
    remade_hexagon (hex_to_dict m) r -> hex_outline m ua ui paths -> hex_outline r ua ui paths) /\
  (forall m paths r ua ui, plain (dx1 m) -> plain (dx2 m) -> plain (dx3 m) -> plain (dy1 m) -> plain (dy2 m) -> plain (dyl m) -> plain (dyu m) ->
    dzero m = true -> remade_decagon (dec_to_dict m) r -> dec_outline m ua ui paths -> dec_outline r ua ui paths).
Proof.
  split.
  - intros [x1 x2 y1 yl yu z c] paths r ua ui. cbn [hx1 hx2 hy1 hyl hyu hzero]. intros (a1 & ->) (a2 & ->) (a3 & ->) (a4 & ->) (a5 & ->) Z M (c0 & E & P). cbn in Z. subst z.
    pose proof (remade_hex _ _ M) as ER. cbn [hx1 hx2 hy1 hyl hyu val] in ER. subst r. unfold hex_convert in E. cbn [hx1 hx2 hy1 hyl hyu hzero convert bind] in E. injection E as <-. eexists. split; [reflexivity|]. exact P.
  - intros [x1 x2 x3 y1 y2 yl yu z c] paths r ua ui. cbn [dx1 dx2 dx3 dy1 dy2 dyl dyu dzero]. intros (a1 & ->) (a2 & ->) (a3 & ->) (a4 & ->) (a5 & ->) (a6 & ->) (a7 & ->) Z M (c0 & E & P). cbn in Z. subst z.
    pose proof (remade_dec _ _ M) as ER. cbn [dx1 dx2 dx3 dy1 dy2 dyl dyu val] in ER. subst r. unfold dec_convert in E. cbn [dx1 dx2 dx3 dy1 dy2 dyl dyu dzero convert bind] in E. injection E as <-. eexists. split; [reflexivity|]. exact P.
Qed.
(** The dictionary of a mask that counts from the centre is never enough before
    conversion: the mask made from it has another outline. *)
Theorem C64_centre_reference_refuted :
  (forall m paths r ua ui, plain (hyl m) -> hzero m = false -> remade_hexagon (hex_to_dict m) r ->
    hex_outline m ua ui paths -> ~ hex_outline r ua ui paths) /\
  (forall m paths r ua ui, plain (dyl m) -> dzero m = false -> remade_decagon (dec_to_dict m) r ->
    dec_outline m ua ui paths -> ~ dec_outline r ua ui paths).
Proof.
  split.
  - intros m paths r ua ui (a & PL) Z M (c & E & P) (c' & E' & P'). rewrite (remade_hex _ _ M) in E'. injection E' as <-.
    unfold hex_convert in E. rewrite PL, Z in E. apply bind_ok in E. destruct E as (b1 & _ & E). apply bind_ok in E. destruct E as (b2 & _ & E).
    apply bind_ok in E. destruct E as (b3 & _ & E). cbn [convert bind] in E. apply bind_ok in E. destruct E as (b5 & _ & E).
    assert (EC : c = Hexagon b1 b2 (Plain (/ 2 - val b3)) (Plain (a - / 2)) (Plain (val b5 - / 2)) false true) by (cbn in E; congruence).
    rewrite EC in P. cbn in P, P'. rewrite PL in P'. cbn in P'. rewrite <- P in P'. injection P'. intros. lra.
  - intros m paths r ua ui (a & PL) Z M (c & E & P) (c' & E' & P'). rewrite (remade_dec _ _ M) in E'. injection E' as <-.
    unfold dec_convert in E. rewrite PL, Z in E. apply bind_ok in E. destruct E as (b1 & _ & E). apply bind_ok in E. destruct E as (b2 & _ & E).
    apply bind_ok in E. destruct E as (b3 & _ & E). apply bind_ok in E. destruct E as (b4 & _ & E). apply bind_ok in E. destruct E as (b5 & _ & E).
    cbn [convert bind] in E. apply bind_ok in E. destruct E as (b7 & _ & E).
    assert (EC : c = Decagon b1 b2 b3 (Plain (/ 2 - val b4)) (Plain (/ 2 - val b5)) (Plain (a - / 2)) (Plain (val b7 - / 2)) false true) by (cbn in E; congruence).
    rewrite EC in P. cbn in P, P'. rewrite PL in P'. cbn in P'. rewrite <- P in P'. injection P'. intros. lra.
Qed.
(** Nor is it enough for numbers in real units: they are read back as fractions. *)
Theorem C64_real_units_refuted : exists m r paths,
  remade_hexagon (hex_to_dict m) r /\ hzero m = true /\ hex_outline m 2 2 paths /\ ~ hex_outline r 2 2 paths.
Proof.
  set (m := new_hexagon (RealUnits 1) (Plain (1 / 4)) (Plain (1 / 4)) (Plain 0) (Plain 0) true).
  exists m. destruct (proj1 C64_remakes m) as [r M]. exists r.
  exists (hex_paths (Hexagon (Plain (1 / 2)) (Plain (1 / 4)) (Plain (1 / 4)) (Plain 0) (Plain 0) true true)).
  split; [exact M|]. split; [reflexivity|]. split.
  - exists (Hexagon (Plain (1 / 2)) (Plain (1 / 4)) (Plain (1 / 4)) (Plain 0) (Plain 0) true true). split; [|reflexivity]. unfold hex_convert, m, new_hexagon. cbn [hx1 hx2 hy1 hyl hyu hzero convert bind].
    unfold py_div. cbn [neq nofZ NumR]. destruct (Reqb 2 0) eqn:Q; [unfold Reqb in Q; destruct (Req_EM_T 2 0); [lra|discriminate]|]. reflexivity.
  - intros (c & E & P). rewrite (remade_hex _ _ M) in E. injection E as <-. cbn in P. injection P. intros. lra.
Qed.
(** Masks of other shapes give their outline, or ValueError before conversion. *)
Theorem C64_paths : forall paths : list (@path R),
  paths_to_dict true paths = Ok [(str "paths", Paths paths)] /\ paths_to_dict false paths = Err ValueError.
Proof. split; reflexivity. Qed.
(** A converted mask. *)
Example C64_witness : exists (m c : @hexagon R) paths, hzero m = false /\ hex_convert m 4 1 = Ok c /\ hex_get_paths c = Ok paths /\ length paths = 3%nat.
Proof.
  exists (new_hexagon (Plain (1 / 4)) (Plain (1 / 3)) (Plain (1 / 4)) (Plain (3 / 4)) (Plain (3 / 4)) false).
  eexists. eexists. repeat split.
Qed.
Print Assumptions C64_remakes.
Print Assumptions C64_converted.
Print Assumptions C64_plain.
Print Assumptions C64_centre_reference_refuted.
Print Assumptions C64_real_units_refuted.
Print Assumptions C64_paths.
