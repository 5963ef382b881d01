(** Vocabulary for the life of an eye diagram object. *)
From Coq Require Import ZArith Reals Bool List.
Import ListNotations.
From Verif Require Import Base Num MaskModel EyeRunModel.
Local Open Scope R_scope.

(** The samples of all waveforms. *)
Definition all_samples (w : ndarray) : list R := concat (map snd (waves w)).
(** Where the clock of one waveform comes from: given clock waveforms, the
    recovery, or a fixed rate when the levels are too noisy. *)
Definition clock_source (w : ndarray) (clocks : option ndarray) : list (list R * list R) :=
  match clocks with Some c => waves c | None => waves w end.
Definition clock_of (new_cdr : R -> cdr) (clocks : option ndarray) (c : config) (l : levels) (w : list R * list R) : result (list R) :=
  match clocks with
  | Some _ => selected_edges l (c_polarity c) w
  | None =>
      if l_low_snr l then fallback_clock (c_fallback_period c) w
      else bind (runner_cdr l (c_polarity c) (match c_cdr c with Some x => x | None => new_cdr (c_fallback_period c) end) w) (fun r => Ok (fst r))
  end.
(** Shape of the arguments of the constructor. *)
Definition array_of (n points : nat) (a : ndarray) : Prop :=
  shape a = [n; 2; points]%nat \/ (n = 1%nat /\ shape a = [2; points]%nat).
(** Results reported by calls. *)
Definition succeeded {X} (r : result (option X)) : Prop := exists m, r = Ok (Some m).
(** Adjacent differences of the clock edges of all waveforms. *)
Definition adjacent (l : list R) (p : R) : Prop := exists k a b, nth_error l k = Some a /\ nth_error l (S k) = Some b /\ p = b - a.
Definition is_period (edges : list (list R)) (p : R) : Prop := exists l, In l edges /\ adjacent l p.
