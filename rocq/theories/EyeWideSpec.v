(** Vocabulary for open eyes: how long and between which values the eye is open,
    and which masks fit in. *)
From Coq Require Import ZArith Reals Bool List.
Import ListNotations.
From Verif Require Import StatsModel Pam2Model EyeDataSpec EyeEdgesSpec.
Local Open Scope R_scope.

(** The samples of a symbol (times in symbols, values; the symbol is from 0 to
    1): for [h] symbols on each side of the middle of the symbol, and of the ones
    before and after it, all samples are at or below [lo], or all are at or above
    [hi]. *)
Definition opening (h lo hi : R) (ps : list (R * R)) : Prop :=
  forall c, (c = -1 \/ c = 0 \/ c = 1)%Z -> exists bit : bool,
    forall p, In p ps -> Rabs (fst p - (1 / 2 + IZR c)) <= h -> if bit then hi <= snd p else snd p <= lo.
(** An outline of a mask (times in symbols, heights with the low level at 0 and
    the high one at 1) lies in the opening, or above or below all values. *)
Definition fits_in (h lo hi bottom top low amp : R) (outline : list (R * R)) : Prop :=
  Forall (fun q => Rabs (fst q - 1 / 2) <= h /\ lo < low + amp * snd q < hi) outline
  \/ Forall (fun q => top < low + amp * snd q) outline
  \/ Forall (fun q => low + amp * snd q < bottom) outline.
(** A level, with half of the height around it that counts as being there, is in
    the opening. *)
Definition clear_of (lo hi height level : R) : Prop := lo < level - height / 2 /\ level + height / 2 < hi.
(** A record whose edges only go up, or only down. *)
Definition smooth_of (k : bands) (period near td : R) (record : list R * list R * list R) (s : signal) : Prop :=
  forall first, nth_error (fst (fst record)) 0 = Some first -> monotone k period near td first (snd (fst record)) s.

(** Reported times, when symbols of period [t] are crossed within [r] of their
    boundaries: crossing time, jitter, symbol period and rate, eye width. *)
Definition crossings_within (t r : R) (mt : measures_t) : Prop :=
  (forall u, m_t_cross mt = Some u -> Rabs (value u) < r)
  /\ (forall x, m_jitter_pp mt = Some x -> 0 <= x < 2 * r) /\ (forall x, m_jitter_rms mt = Some x -> 0 <= x < r)
  /\ (forall u, m_t_sym mt = Some u -> Rabs (value u - t) < 2 * r)
  /\ (forall u, m_f_sym mt = Some u -> value u * (t - 2 * r) < 1 < value u * (t + 2 * r))
  /\ (forall u, m_width mt = Some u -> t - 8 * r < value u < t + 2 * r).
(** The same for the starts and lengths of bits and for rise and fall times, as
    far as the levels at which they are taken are [clear]. *)
Definition edges_within (clear : R -> Prop) (lower upper t r : R) (mt : measures_t) : Prop :=
  (clear (1 / 2) -> (forall u, m_t_0_start mt = Some u -> Rabs (value u) < r) /\ (forall u, m_t_1_start mt = Some u -> Rabs (value u) < r)
     /\ (forall u, m_t_0 mt = Some u -> Rabs (value u - t) < 2 * r) /\ (forall u, m_t_1 mt = Some u -> Rabs (value u - t) < 2 * r) /\ (forall u, m_dcd mt = Some u -> Rabs (value u) < 2 * r))
  /\ (clear lower -> forall u, m_t_rise_start mt = Some u -> Rabs (value u) < r)
  /\ (clear upper -> forall u, m_t_fall_start mt = Some u -> Rabs (value u) < r)
  /\ (clear lower -> clear upper -> (forall u, m_t_rise mt = Some u -> Rabs (value u) < 2 * r) /\ (forall u, m_t_fall mt = Some u -> Rabs (value u) < 2 * r)).
(** A bathtub curve whose walls keep [q] symbols away from the middle. *)
Definition walls_beyond (q : R) (curve : option (list (list R * list R))) : Prop :=
  exists times rates, curve = Some [(times, rates)] /\ forall x, In x times -> q < Rabs (x - 1 / 2) <= 1 / 2.
