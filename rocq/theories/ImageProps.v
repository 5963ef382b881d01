(** C15: alpha compositing. *)
From Coq Require Import List ZArith Bool Lia Reals Lra.
Import ListNotations.
From Verif Require Import Base Num RBool ImageModel ImageSpec ImageProofs.
Local Open Scope R_scope.

(** Whatever the uninitialised memory holds, layering two RGBA images of the
    same shape yields an RGBA image of that shape whose every pixel is the
    composition of the input pixels. *)
Theorem C15_layer_is_over : forall junk (below above : image (A := R)),
  wf below -> wf above -> shape below = shape above ->
  exists out, layer_rgba junk below above = Ok out /\ wf out /\ shape out = shape below /\
    forall i pb pa, nth_error (pixels below) i = Some pb -> nth_error (pixels above) i = Some pa ->
      exists po, nth_error (pixels out) i = Some po /\ over pb pa po.
Proof. exact layer_ok. Qed.
Print Assumptions C15_layer_is_over.

(** Consequences for every pixel of the result: alpha stays in [0, 1], and a
    visible colour lies between the two input colours. *)
Theorem C15_range : forall junk (below above out : image (A := R)),
  wf below -> wf above -> layer_rgba junk below above = Ok out ->
  (forall p, In p (pixels below ++ pixels above) -> unit_range p) ->
  forall i pb pa po, nth_error (pixels below) i = Some pb -> nth_error (pixels above) i = Some pa ->
    nth_error (pixels out) i = Some po ->
    0 <= alpha po <= 1 /\
    (alpha po <> 0 -> forall k, (k < 3)%nat ->
       0 <= at_ po k <= 1 /\ exists t, 0 <= t <= 1 /\ at_ po k = t * at_ pa k + (1 - t) * at_ pb k).
Proof.
  intros junk below above out Wb Wa Hl Hr i b a o Eb Ea Eo.
  assert (Ho := layer_over_at junk below above out Wb Wa Hl i b a o Eb Ea Eo).
  destruct (Hr b) as [_ Hb]; [apply in_or_app; left; exact (nth_error_In _ _ Eb)|].
  destruct (Hr a) as [_ Ha]; [apply in_or_app; right; exact (nth_error_In _ _ Ea)|].
  assert (Rb := Hb 3%nat ltac:(lia)). assert (Ra := Ha 3%nat ltac:(lia)).
  split; [exact (over_alpha_range b a o Rb Ra Ho)|]. intros Hne k Hk.
  destruct (over_convex b a o k Rb Ra Ho Hne Hk) as (t & Ht & E). split; [|exists t; split; assumption].
  specialize (Hb k ltac:(lia)). specialize (Ha k ltac:(lia)). rewrite E. nra.
Qed.
Print Assumptions C15_range.

Theorem C15_opaque_and_transparent : forall junk (below above out : image (A := R)),
  wf below -> wf above -> layer_rgba junk below above = Ok out ->
  forall i pb pa po, nth_error (pixels below) i = Some pb -> nth_error (pixels above) i = Some pa ->
    nth_error (pixels out) i = Some po ->
  (alpha pa = 1 -> looks_like po pa) /\ (alpha pa = 0 -> looks_like po pb) /\ (alpha pb = 0 -> looks_like po pa).
Proof.
  intros junk below above out Wb Wa Hl i b a o Eb Ea Eo.
  assert (Ho := layer_over_at junk below above out Wb Wa Hl i b a o Eb Ea Eo). split; [|split].
  - exact (over_opaque b a o Ho).
  - exact (over_transparent b a o Ho).
  - exact (over_below_transparent b a o Ho).
Qed.
Print Assumptions C15_opaque_and_transparent.

(** The colour of a fully transparent input pixel never matters: inputs that
    look alike give results that look alike. *)
Theorem C15_transparent_colour_irrelevant : forall j j' (b a o b' a' o' : image (A := R)),
  wf b -> wf a -> wf b' -> wf a' -> layer_rgba j b a = Ok o -> layer_rgba j' b' a' = Ok o' ->
  forall i pb pa po pb' pa' po',
    nth_error (pixels b) i = Some pb -> nth_error (pixels a) i = Some pa -> nth_error (pixels o) i = Some po ->
    nth_error (pixels b') i = Some pb' -> nth_error (pixels a') i = Some pa' -> nth_error (pixels o') i = Some po' ->
    looks_like pb pb' -> looks_like pa pa' -> looks_like po po'.
Proof.
  intros j j' b a o b' a' o' Wb Wa Wb' Wa' L L' i pb pa po pb' pa' po' E1 E2 E3 E4 E5 E6.
  exact (over_congr pb pa po pb' pa' po' (layer_over_at j b a o Wb Wa L i pb pa po E1 E2 E3)
           (layer_over_at j' b' a' o' Wb' Wa' L' i pb' pa' po' E4 E5 E6)).
Qed.
Print Assumptions C15_transparent_colour_irrelevant.

(** Layering is associative: (c over (b over a)) looks like ((c over b) over a)
    at every pixel, whatever the four runs leave in transparent pixels. *)
Theorem C15_associative : forall j1 j2 j3 j4 (a b c : image (A := R)) ab l bc r,
  wf a -> wf b -> wf c -> shape a = shape b -> shape b = shape c ->
  (forall p, In p (pixels a ++ pixels b ++ pixels c) -> 0 <= alpha p <= 1) ->
  layer_rgba j1 a b = Ok ab -> layer_rgba j2 ab c = Ok l ->
  layer_rgba j3 b c = Ok bc -> layer_rgba j4 a bc = Ok r ->
  forall i pl pr, nth_error (pixels l) i = Some pl -> nth_error (pixels r) i = Some pr -> looks_like pl pr.
Proof.
  intros j1 j2 j3 j4 a b c ab l bc r Wa Wb Wc Sab Sbc Hal H1 H2 H3 H4 i pl pr Hl Hr.
  destruct (layer_ok j1 a b Wa Wb Sab) as (x & E & Wx & Sx & Px). rewrite H1 in E. injection E as <-.
  destruct (layer_ok j3 b c Wb Wc Sbc) as (y & E & Wy & Sy & Py). rewrite H3 in E. injection E as <-.
  destruct (layer_ok j2 ab c Wx Wc ltac:(congruence)) as (u & E & Wu & Su & Pu). rewrite H2 in E. injection E as <-.
  destruct (layer_ok j4 a bc Wa Wy ltac:(congruence)) as (v & E & Wv & Sv & Pv). rewrite H4 in E. injection E as <-.
  assert (Hlen : forall p q : image (A := R), wf p -> wf q -> shape p = shape q -> length (pixels p) = length (pixels q)).
  { intros p q (h & w & S1 & L1 & _) (h' & w' & S2 & L2 & _) E. rewrite L1, L2. rewrite S1, S2 in E.
    injection E as -> ->. reflexivity. }
  assert (Hi : (i < length (pixels l))%nat) by (apply nth_error_Some; congruence).
  assert (Hget : forall p : image (A := R), wf p -> shape p = shape a -> exists x, nth_error (pixels p) i = Some x).
  { intros p Wp Sp. destruct (nth_error (pixels p) i) eqn:E; [eexists; reflexivity|]. exfalso.
    apply nth_error_None in E. rewrite (Hlen l p Wu Wp ltac:(congruence)) in Hi. lia. }
  destruct (Hget a Wa eq_refl) as (pa & Ea). destruct (Hget b Wb ltac:(congruence)) as (pb & Eb).
  destruct (Hget c Wc ltac:(congruence)) as (pc & Ec).
  destruct (Px i pa pb Ea Eb) as (pab & Eab & Oab). destruct (Py i pb pc Eb Ec) as (pbc & Ebc & Obc).
  destruct (Pu i pab pc Eab Ec) as (pl' & El & Ol). rewrite Hl in El. injection El as <-.
  destruct (Pv i pa pbc Ea Ebc) as (pr' & Er & Or). rewrite Hr in Er. injection Er as <-.
  apply (over_assoc pa pb pc pab pbc pl pr); try assumption; apply Hal; rewrite !in_app_iff;
    eauto using nth_error_In.
Qed.
Print Assumptions C15_associative.

(** Errors: different shapes, or not four channels. *)
Theorem C15_shape_errors {A} `{Num A} : forall junk (below above : image (A := A)),
  (shape below <> shape above -> layer_rgba junk below above = Err ValueError) /\
  (shape below = shape above -> forall h w c, shape below = [h; w; c] -> c <> 4%nat ->
     layer_rgba junk below above = Err ValueError) /\
  (shape below = shape above -> (length (shape below) < 3)%nat -> layer_rgba junk below above = Err IndexError).
Proof.
  intros junk below above. unfold layer_rgba.
  destruct (list_eq_dec Nat.eq_dec (shape below) (shape above)) as [E|E].
  - split; [contradiction|]. split.
    + intros _ h w c Hs Hc.
      assert (Hg : get (shape below) 2 = Ok c) by (rewrite Hs; reflexivity). rewrite Hg. cbn [bind].
      destruct (Nat.eqb_spec c 4); [contradiction|reflexivity].
    + intros _ Hl. unfold get. rewrite (proj2 (nth_error_None _ _)) by lia. reflexivity.
  - split; [reflexivity|]. split; intros; contradiction.
Qed.
Print Assumptions C15_shape_errors.

(** The colour left in fully transparent pixels is arbitrary memory; when it
    happens to be NaN a later opaque layer does not cover it (doubles). *)
Theorem C15_uninitialised_colour_refuted :
  let nan := SpecFloat.S754_nan in
  let clear := [f64_ofZ 1; f64_ofZ 1; f64_ofZ 1; f64_ofZ 0] in
  let opaque := [f64_ofZ 1; f64_ofZ 1; f64_ofZ 1; f64_ofZ 1] in
  exists mid out, layer_rgba (fun _ _ => nan) (Image [1; 1; 4]%nat [clear]) (Image [1; 1; 4]%nat [clear]) = Ok mid /\
    layer_rgba (fun _ _ => nan) mid (Image [1; 1; 4]%nat [opaque]) = Ok out /\
    nth_error (pixels out) 0 = Some [nan; nan; nan; f64_ofZ 1].
Proof. do 2 eexists. split; [vm_compute; reflexivity|]. split; vm_compute; reflexivity. Qed.
Print Assumptions C15_uninitialised_colour_refuted.

(** Conversion before PNG encoding: in range, and within one step below. *)
Theorem C15_to_uint8 : forall x, 0 <= x <= 1 ->
  (0 <= to_uint8 x <= 255)%Z /\ IZR (to_uint8 x) <= 255 * x < IZR (to_uint8 x) + 1.
Proof. exact to_uint8_spec. Qed.
Print Assumptions C15_to_uint8.

From Coq Require Import QArith.
Local Close Scope Q_scope.
Example C15_witness : layer_rgba (A := Q) (fun _ _ => 7%Q)
  (Image [1; 2; 4]%nat [[1; 0; 0; 1]; [0; 0; 1; 0]]%Q) (Image [1; 2; 4]%nat [[0; 1; 0; 1 # 2]; [1; 0; 0; 0]]%Q)
  = Ok (Image [1; 2; 4]%nat [[1 # 2; 1 # 2; 0; 1]; [7; 7; 7; 0]]%Q).
Proof. vm_compute. reflexivity. Qed.
Example C15_witness_wf : wf (A := R) (Image [1; 1; 4]%nat [[1; 0; 0; 1 / 2]]).
Proof. exists 1%nat, 1%nat. repeat split. intros p [<-|[]]. reflexivity. Qed.
Example C15_witness_range : unit_range [1; 0; 0; 1 / 2].
Proof. split; [reflexivity|]. intros k Hk. unfold at_. destruct k as [|[|[|[|k]]]]; cbn; lra || lia. Qed.
