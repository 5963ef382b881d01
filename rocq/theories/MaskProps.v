(** C35 (mask unit conversion) and C36 (mask adjustment). *)
From Coq Require Import List ZArith Bool Lia Reals Lra Psatz.
Import ListNotations.
From Verif Require Import Base Num RBool MaskModel MaskSpec MaskProofs.
Local Open Scope R_scope.

(** * C35 *)
(** A new mask has no readable paths. *)
Theorem C35_paths_need_conversion {A} `{Num A} :
  (forall x1 x2 y1 yl yu z, hex_get_paths (A := A) (new_hexagon x1 x2 y1 yl yu z) = Err ValueError) /\
  (forall x1 x2 x3 y1 y2 yl yu z, dec_get_paths (A := A) (new_decagon x1 x2 x3 y1 y2 yl yu z) = Err ValueError).
Proof. split; reflexivity. Qed.
Print Assumptions C35_paths_need_conversion.

(** Converting gives the mask of the class drawing, lengths tagged RealUnits
    measured in the given unit interval or amplitude, the others as they are. *)
Theorem C35_hexagon_as_drawn : forall (m : hexagon R) ua ui, ua <> 0 -> ui <> 0 ->
  exists m', hex_convert m ua ui = Ok m' /\ hzero m' = hzero m /\
    hex_get_paths m' = Ok (drawn_hexagon (hzero m) (in_units (hx1 m) ui) (in_units (hx2 m) ui)
      (in_units (hy1 m) ua) (in_units (hyl m) ua) (in_units (hyu m) ua)).
Proof. exact hex_convert_ok. Qed.
Print Assumptions C35_hexagon_as_drawn.

Theorem C35_decagon_as_drawn : forall (m : decagon R) ua ui, ua <> 0 -> ui <> 0 ->
  exists m', dec_convert m ua ui = Ok m' /\ dzero m' = dzero m /\
    dec_get_paths m' = Ok (drawn_decagon (dzero m) (in_units (dx1 m) ui) (in_units (dx2 m) ui) (in_units (dx3 m) ui)
      (in_units (dy1 m) ua) (in_units (dy2 m) ua) (in_units (dyl m) ua) (in_units (dyu m) ua)).
Proof. exact dec_convert_ok. Qed.
Print Assumptions C35_decagon_as_drawn.

(** With zero_ref, converting an already converted mask changes nothing,
    whatever the units. *)
Theorem C35_idempotent_zero_ref :
  (forall (m m1 : hexagon R) ua ui, hzero m = true -> hex_convert m ua ui = Ok m1 ->
     forall ua' ui', hex_convert m1 ua' ui' = Ok m1) /\
  (forall (m m1 : decagon R) ua ui, dzero m = true -> dec_convert m ua ui = Ok m1 ->
     forall ua' ui', dec_convert m1 ua' ui' = Ok m1).
Proof. split; [exact hex_convert_idem|exact dec_convert_idem]. Qed.
Print Assumptions C35_idempotent_zero_ref.

(** Without zero_ref a second conversion moves the mask. *)
Theorem C35_idempotent_refuted : exists (m m1 m2 : hexagon R) p1 p2,
  hzero m = false /\ hex_convert m 1 1 = Ok m1 /\ hex_convert m1 1 1 = Ok m2 /\
  hex_get_paths m1 = Ok p1 /\ hex_get_paths m2 = Ok p2 /\ upper_limit p1 <> upper_limit p2.
Proof.
  set (m := new_hexagon (Plain (1/4)) (Plain (1/3)) (Plain (1/8)) (Plain 1) (Plain 1) false : hexagon R).
  exists m, (Hexagon (Plain (1/4)) (Plain (1/3)) (Plain (/2 - 1/8)) (Plain (1 - /2)) (Plain (1 - /2)) false true),
    (Hexagon (Plain (1/4)) (Plain (1/3)) (Plain (/2 - (/2 - 1/8))) (Plain (1 - /2 - /2)) (Plain (1 - /2 - /2)) false true).
  do 2 eexists. repeat (split; [reflexivity|]). unfold upper_limit. cbn. lra.
Qed.
Print Assumptions C35_idempotent_refuted.

(** A RealUnits length and a zero unit raise ZeroDivisionError (Python floats). *)
Theorem C35_zero_unit : forall (m : hexagon R) ua, (exists a, hx1 m = RealUnits a) ->
  hex_convert m ua 0 = Err ZeroDivisionError.
Proof. intros m ua [a Ha]. unfold hex_convert. rewrite Ha, convert_zero. reflexivity. Qed.
Print Assumptions C35_zero_unit.

(** adjust forgets the RealUnits tag, so adjusting (even by 0) before
    converting gives a different mask from converting before adjusting. *)
Theorem C35_adjust_forgets_units_refuted : exists (m ma mac mc mca : hexagon R) p q,
  hex_adjust m 0 = Ok ma /\ hex_convert ma 1 (1/10) = Ok mac /\
  hex_convert m 1 (1/10) = Ok mc /\ hex_adjust mc 0 = Ok mca /\
  hex_get_paths mac = Ok p /\ hex_get_paths mca = Ok q /\ nth 0 (center_path p) (0, 0) <> nth 0 (center_path q) (0, 0).
Proof.
  set (m := new_hexagon (RealUnits (1/40)) (Plain (1/3)) (Plain (1/4)) (Plain (1/4)) (Plain (1/4)) true : hexagon R).
  assert (A0 : forall n : hexagon R, val (hx1 n) <> /2 -> val (hy1 n) <> /2 -> exists n', hex_adjust n 0 = Ok n' /\
    hx1 n' = Plain (/2 - (1 + 0) * (/2 - val (hx1 n))) /\ hconv n' = hconv n /\ hx2 n' = Plain (/2 - (1 + 0) * (/2 - val (hx2 n))) /\
    hzero n' = hzero n).
  { intros n H1 H2. eexists. split; [apply hex_adjust_eq; assumption|]. unfold scale_of.
    rewrite (proj2 (Rltb_false 0 0)) by lra. repeat split. }
  destruct (A0 m) as (ma & E1 & X1 & C1 & _ & Z1); [cbn; lra|cbn; lra|].
  destruct (hex_convert_ok ma 1 (1/10)) as (mac & E2 & _ & P2); [lra|lra|].
  assert (exists mc, hex_convert m 1 (1/10) = Ok mc /\ hx1 mc = Plain (1/40 / (1/10)) /\ hy1 mc = Plain (1/4) /\ hconv mc = true)
    as (mc & E3 & X3 & Y3 & C3).
  { unfold hex_convert. rewrite !convert_R by (left; lra). eexists. split; [reflexivity|]. repeat split. }
  destruct (A0 mc) as (mca & E4 & X4 & C4 & _ & Z4); [rewrite X3; cbn; lra|rewrite Y3; cbn; lra|].
  exists m, ma, mac, mc, mca.
  eexists. exists (hex_paths mca). split; [exact E1|]. split; [exact E2|]. split; [exact E3|]. split; [exact E4|].
  split; [exact P2|]. split; [unfold hex_get_paths, get_paths; rewrite C4, C3; reflexivity|].
  unfold drawn_hexagon, center_path, hex_paths. cbn [hd nth]. rewrite X1, X4, X3. cbn [in_units val hx1 m new_hexagon].
  intros E. apply (f_equal fst) in E. cbn in E. lra.
Qed.
Print Assumptions C35_adjust_forgets_units_refuted.

(** * C36 *)
(** adjust(0) leaves every path as it is. *)
Theorem C36_zero_is_identity :
  (forall m : hexagon R, exists m', hex_adjust m 0 = Ok m' /\ hex_get_paths m' = hex_get_paths m) /\
  (forall m : decagon R, exists m', dec_adjust m 0 = Ok m' /\ dec_get_paths m' = dec_get_paths m).
Proof.
  assert (E : forall c : R, towards_half (neg 0) c = c).
  { intros c. unfold towards_half, neg, one. cbn. lra. }
  split; intros m; [unfold hex_adjust|unfold dec_adjust]; cbn [nlt nofZ NumR]; rewrite (proj2 (Rltb_false 0 0)) by lra;
    (eexists; split; [reflexivity|]).
  - unfold hex_get_paths, hex_paths. cbn [hconv hx1 hx2 hy1 hyl hyu val]. rewrite !E. reflexivity.
  - unfold dec_get_paths, dec_paths. cbn [dconv dx1 dx2 dx3 dy1 dy2 dyl dyu val]. rewrite !E. reflexivity.
Qed.
Print Assumptions C36_zero_is_identity.

(** adjust(-1): the outline collapses to the centre and the limits go to half
    an amplitude outside the levels. *)
Theorem C36_minus_one : 
  (forall m : hexagon R, hconv m = true -> exists m' p, hex_adjust m (-1) = Ok m' /\ hex_get_paths m' = Ok p /\
     (forall r, In r (center_path p) -> r = (1/2, 1/2)) /\ upper_limit p = 3/2 /\ lower_limit p = -1/2) /\
  (forall m : decagon R, dconv m = true -> exists m' p, dec_adjust m (-1) = Ok m' /\ dec_get_paths m' = Ok p /\
     (forall r, In r (center_path p) -> r = (1/2, 1/2)) /\ upper_limit p = 3/2 /\ lower_limit p = -1/2).
Proof.
  assert (E : forall c : R, towards_half (neg (-1)) c = /2).
  { intros c. unfold towards_half, neg, one. cbn. lra. }
  split; intros m Hc; [unfold hex_adjust|unfold dec_adjust]; cbn [nlt nofZ NumR];
    rewrite (proj2 (Rltb_false 0 (-1))) by lra; do 2 eexists; (split; [reflexivity|]).
  - unfold hex_get_paths, get_paths. cbn [hconv]. rewrite Hc. split; [reflexivity|].
    unfold hex_paths, center_path, upper_limit, lower_limit, limit_paths, neg at 6 7 8, one.
    cbn [hx1 hx2 hy1 hyl hyu val hd nth snd fst]. rewrite !E. cbn [nofZ nadd nsub nhalf NumR]. unfold neg. cbn [nofZ nsub NumR].
    split; [|split; lra].
    intros r Hr. cbn [In] in Hr. repeat (destruct Hr as [<-|Hr]); [..|destruct Hr]; f_equal; lra.
  - unfold dec_get_paths, get_paths. cbn [dconv]. rewrite Hc. split; [reflexivity|].
    unfold dec_paths, center_path, upper_limit, lower_limit, limit_paths, one.
    cbn [dx1 dx2 dx3 dy1 dy2 dyl dyu val hd nth snd fst]. rewrite !E. cbn [nofZ nadd nsub nhalf NumR]. unfold neg. cbn [nofZ nsub NumR].
    split; [|split; lra].
    intros r Hr. cbn [In] in Hr. repeat (destruct Hr as [<-|Hr]); [..|destruct Hr]; f_equal; lra.
Qed.
Print Assumptions C36_minus_one.

(** adjust(1): the outline spans the whole unit interval and amplitude, and
    the limits lie on the levels. *)
Theorem C36_plus_one : 
  (forall m : hexagon R, hconv m = true -> val (hx1 m) <> 1/2 -> exists m' p, hex_adjust m 1 = Ok m' /\ hex_get_paths m' = Ok p /\
     nth 0 (center_path p) (0,0) = (0, 1/2) /\ nth 3 (center_path p) (0,0) = (1, 1/2) /\
     snd (nth 1 (center_path p) (0,0)) = 1 /\ snd (nth 4 (center_path p) (0,0)) = 0 /\
     upper_limit p = 1 /\ lower_limit p = 0) /\
  (forall m : decagon R, dconv m = true -> val (dx1 m) <> 1/2 -> val (dy1 m) <> 1/2 ->
     exists m' p, dec_adjust m 1 = Ok m' /\ dec_get_paths m' = Ok p /\
     nth 0 (center_path p) (0,0) = (0, 1/2) /\ nth 5 (center_path p) (0,0) = (1, 1/2) /\
     snd (nth 2 (center_path p) (0,0)) = 1 /\ snd (nth 7 (center_path p) (0,0)) = 0 /\
     upper_limit p = 1 /\ lower_limit p = 0).
Proof.
  split.
  - intros m Hc Hx. unfold hex_adjust. cbn [nlt nofZ NumR]. rewrite (proj2 (Rltb_true 0 1)) by lra.
    rewrite proportional_R by lra. do 2 eexists. split; [reflexivity|].
    unfold hex_get_paths, get_paths. cbn [hconv]. rewrite Hc. split; [reflexivity|].
    unfold hex_paths, center_path, upper_limit, lower_limit, limit_paths, neg, one.
    cbn [hx1 hx2 hy1 hyl hyu val hd nth snd fst nofZ nadd nsub nmul nhalf NumR].
    repeat split; try (apply pair_eq); lra.
  - intros m Hc Hx Hy. unfold dec_adjust. cbn [nlt nofZ NumR]. rewrite (proj2 (Rltb_true 0 1)) by lra.
    rewrite !proportional_R by lra. do 2 eexists. split; [reflexivity|].
    unfold dec_get_paths, get_paths. cbn [dconv]. rewrite Hc. split; [reflexivity|].
    unfold dec_paths, center_path, upper_limit, lower_limit, limit_paths, neg, one.
    cbn [dx1 dx2 dx3 dy1 dy2 dyl dyu val hd nth snd fst nofZ nadd nsub nmul nhalf NumR].
    repeat split; try (apply pair_eq); lra.
Qed.
Print Assumptions C36_plus_one.

(** For masks shaped as drawn, a larger factor forbids a larger area. *)
Theorem C36_hexagon_grows : forall (m mf mg : hexagon R) f g pf pg,
  shaped_hexagon m -> -1 <= f -> f <= g -> g <= 1 ->
  hex_adjust m f = Ok mf -> hex_adjust m g = Ok mg -> hex_get_paths mf = Ok pf -> hex_get_paths mg = Ok pg ->
  forall r, forbidden pf r -> forbidden pg r.
Proof. exact hex_grows. Qed.
Print Assumptions C36_hexagon_grows.

Theorem C36_decagon_grows : forall (m mf mg : decagon R) f g pf pg,
  shaped_decagon m -> -1 <= f -> f <= g -> g <= 1 ->
  dec_adjust m f = Ok mf -> dec_adjust m g = Ok mg -> dec_get_paths mf = Ok pf -> dec_get_paths mg = Ok pg ->
  forall r, forbidden pf r -> forbidden pg r.
Proof. exact dec_grows. Qed.
Print Assumptions C36_decagon_grows.

(** Limits further out than half an amplitude are moved inward by a negative
    factor, so shrinking such a mask makes it forbid more. *)
Theorem C36_far_limits_grow_refuted : exists (m m0 m1 : hexagon R) p0 p1 r,
  hex_adjust m (-1) = Ok m1 /\ hex_get_paths m1 = Ok p1 /\ hex_adjust m 0 = Ok m0 /\ hex_get_paths m0 = Ok p0 /\
  forbidden p1 r /\ ~ forbidden p0 r.
Proof.
  set (m := Hexagon (Plain (1/4)) (Plain (1/4)) (Plain (1/4)) (Plain 1) (Plain 1) true true : hexagon R).
  assert (E : forall f, hex_adjust m f = Ok (Hexagon
    (Plain (/2 - scale_of f (1/4) * (/2 - 1/4))) (Plain (/2 - scale_of f (1/4) * (/2 - 1/4)))
    (Plain (/2 - scale_of f (1/4) * (/2 - 1/4)))
    (Plain (limit_of f 1)) (Plain (limit_of f 1)) true true)) by (intros f; apply hex_adjust_eq; cbn; lra).
  exists m. do 4 eexists. exists (0, 7/4). split; [apply E|]. split; [reflexivity|]. split; [apply E|]. split; [reflexivity|].
  rewrite !hex_paths_eq, !forbidden_limits. unfold limit_of, scale_of.
  rewrite (proj2 (Rltb_false 0 (-1))), (proj2 (Rltb_false 0 0)) by lra. split; [right; left; lra|].
  intros [(xl & xr & Hl & _ & _)|[H|H]]; [|lra|lra]. cbn [snd] in Hl. apply on_hex_dec in Hl.
  apply on_dec_profile in Hl; [|lra|lra]. rewrite (abs_pos (7/4 - /2)) in Hl by lra.
  destruct Hl as [_ [(t & Ht & _ & Ev)|[(t & Ht & _ & Ev)|[Ev _]]]]; lra.
Qed.
Print Assumptions C36_far_limits_grow_refuted.

(** Adjusting a hexagon or decagon whose first corner is at the centre by a
    positive factor divides by zero. *)
Theorem C36_degenerate_raises :
  (forall (m : hexagon R) f, 0 < f -> val (hx1 m) = 1/2 -> hex_adjust m f = Err ZeroDivisionError) /\
  (forall (m : decagon R) f, 0 < f -> val (dx1 m) = 1/2 -> dec_adjust m f = Err ZeroDivisionError).
Proof.
  split; intros m f Hf Hx; [unfold hex_adjust|unfold dec_adjust]; cbn [nlt nofZ NumR];
    rewrite (proj2 (Rltb_true 0 f)) by exact Hf; unfold proportional, py_div; cbn [nhalf nsub neq nofZ NumR];
    rewrite Hx, (proj2 (Reqb_true (/2 - 1/2) 0)) by lra; reflexivity.
Qed.
Print Assumptions C36_degenerate_raises.

(** Adjusting never changes whether the paths are readable, and keeps the
    outline closed and point symmetric. *)
Theorem C36_structure_kept :
  (forall (m m' : hexagon R) f, hex_adjust m f = Ok m' ->
     hconv m' = hconv m /\ hzero m' = hzero m /\ nth 6 (center_path (hex_paths m')) (0,0) = nth 0 (center_path (hex_paths m')) (0,0) /\
     forall r, In r (center_path (hex_paths m')) -> In (1 - fst r, 1 - snd r) (center_path (hex_paths m'))) /\
  (forall (m m' : decagon R) f, dec_adjust m f = Ok m' ->
     dconv m' = dconv m /\ dzero m' = dzero m /\ nth 10 (center_path (dec_paths m')) (0,0) = nth 0 (center_path (dec_paths m')) (0,0) /\
     forall r, In r (center_path (dec_paths m')) -> In (1 - fst r, 1 - snd r) (center_path (dec_paths m'))).
Proof.
  split; intros m m' f H.
  - assert (hconv m' = hconv m /\ hzero m' = hzero m).
    { unfold hex_adjust in H. destruct (nlt (nofZ 0) f).
      - unbind H. injection H as <-. split; reflexivity.
      - injection H as <-. split; reflexivity. }
    destruct H0 as [-> ->]. split; [reflexivity|]. split; [reflexivity|]. split; [reflexivity|].
    unfold hex_paths, center_path, one. cbn [hd nofZ nsub nhalf NumR]. intros r Hr. cbn [In] in Hr.
    repeat (destruct Hr as [<-|Hr]); [..|destruct Hr]; cbn [fst snd In];
      [do 3 right; left|do 4 right; left|do 5 right; left|left|do 1 right; left|do 2 right; left|do 3 right; left];
      apply pair_eq; lra.
  - assert (dconv m' = dconv m /\ dzero m' = dzero m).
    { unfold dec_adjust in H. destruct (nlt (nofZ 0) f).
      - unbind H. injection H as <-. split; reflexivity.
      - injection H as <-. split; reflexivity. }
    destruct H0 as [-> ->]. split; [reflexivity|]. split; [reflexivity|]. split; [reflexivity|].
    unfold dec_paths, center_path, one. cbn [hd nofZ nsub nhalf NumR]. intros r Hr. cbn [In] in Hr.
    repeat (destruct Hr as [<-|Hr]); [..|destruct Hr]; cbn [fst snd In];
      [do 5 right; left|do 6 right; left|do 7 right; left|do 8 right; left|do 9 right; left|left|
       do 1 right; left|do 2 right; left|do 3 right; left|do 4 right; left|do 5 right; left];
      apply pair_eq; lra.
Qed.
Print Assumptions C36_structure_kept.

(** Witnesses: a hexagon and a decagon shaped as drawn, converted. *)
Definition hex_ex : hexagon R := Hexagon (Plain (1/8)) (Plain (1/4)) (Plain (1/4)) (Plain (1/4)) (Plain (1/4)) true true.
Example C36_witness_hexagon : shaped_hexagon hex_ex /\ hex_get_paths hex_ex = Ok (hex_paths hex_ex) /\
  forbidden (hex_paths hex_ex) (1/2, 1/2).
Proof.
  split; [unfold shaped_hexagon; cbn; lra|]. split; [reflexivity|]. left.
  exists (1/8), (7/8). unfold hex_paths, center_path, one. cbn [hd fst snd on_path hex_ex hx1 hx2 hy1 val nofZ nsub nhalf NumR].
  split; [left; exists 0; cbn; split; [|split]; lra|]. split; [|lra].
  do 3 right; left. exists 0. cbn. split; [|split]; lra.
Qed.
Example C36_witness_decagon : shaped_decagon
  (Decagon (Plain (1/8)) (Plain (1/4)) (Plain (3/8)) (Plain (1/8)) (Plain (1/4)) (Plain (1/4)) (Plain (1/4)) true true : decagon R).
Proof. unfold shaped_decagon; cbn; lra. Qed.
