(** Vocabulary for the results of a completed eye diagram. *)
From Coq Require Import ZArith Reals Bool List.
Import ListNotations.
From Verif Require Import Pam2Spec.
Local Open Scope R_scope.

(** A clock edge [b] whose neighbouring symbols are inside the record (from the
    first to the last sample), with a few samples to spare. *)
Definition well_inside (t td first last b : R) : Prop := first + t + 4 * td <= b /\ b + t + 3 * td <= last.
(** ... or without any. *)
Definition within (t td first last b : R) : Prop := first + t + td <= b /\ b + t < last.
(** The clock edges of one record that become symbols. *)
Definition symbols_of (t td first last : R) (edges used : list R) : Prop :=
  exists keep : R -> bool, used = filter keep edges
    /\ forall b, In b edges -> (well_inside t td first last b -> keep b = true) /\ (keep b = true -> within t td first last b).
(** The last sample of a record of [n] samples. *)
Definition end_time (td first : R) (n : nat) : R := first + (INR n - 1) * td.
(** [n] samples of a record from number [lo] on, as times in symbols and values;
    the symbol of the clock edge [b] is from 0 to 1. *)
Definition view (t td first b : R) (y : list R) (lo n : nat) : list (R * R) :=
  map (fun j => (1 / 2 + (first + INR j * td - b) / t, nth j y 0)) (seq lo n).
(** [ps] are the samples from at least a symbol before to a symbol after the
    clock edge, placed to half a sample, or exactly if the sample times are
    multiples of the sample period. *)
Definition seen (t td first b : R) (y : list R) (ps : list (R * R)) : Prop :=
  exists b' lo n, Rabs (b' - b) <= td / 2 /\ ((exists k, first = IZR k * td) -> b' = b)
    /\ (lo + n <= length y)%nat /\ first + INR lo * td <= b' - t /\ b' + t <= first + (INR (lo + n) - 1) * td
    /\ ps = view t td first b' y lo n.
(** The symbols of a record ((times, values), clock edges): each its clock edge
    and what is seen of it. *)
Definition record_symbols (t td : R) (record : list R * list R * list R) (syms : list (R * list (R * R))) : Prop :=
  exists first, nth_error (fst (fst record)) 0 = Some first
    /\ symbols_of t td first (end_time td first (length (fst (fst record)))) (snd record) (map fst syms)
    /\ Forall (fun s => seen t td first (fst s) (snd (fst record)) (snd s)) syms.
(** The three decisions about what is seen of a symbol. *)
Definition decided (threshold width : R) (s : list (R * R) * decision) : Prop :=
  decides (-1/2) width threshold (fst s) (prev (snd s)) /\ decides (1/2) width threshold (fst s) (cur (snd s)) /\ decides (3/2) width threshold (fst s) (next (snd s)).
(** Values around [c] of the symbols with the given decision. *)
Definition values_at (c width : R) (keep : decision -> bool) (l : list (list (R * R) * decision)) : list R :=
  flat_map (fun s => values_in c width (fst s)) (filter (fun s => keep (snd s)) l).
(** The pixel (column, row from below) of a sample in an image of [res] by [res]
    pixels from -1/2 to 3/2 symbols and from half an amplitude below the low level
    to half an amplitude above the high one; [cast] rounds to an integer. *)
Definition image_point (cast : R -> Z) (res : Z) (low amp : R) (p : R * R) : Z * Z :=
  (cast ((fst p + 1 / 2) / 2 * IZR res), cast ((snd p - (low - amp / 2)) / (2 * amp) * IZR res)).
