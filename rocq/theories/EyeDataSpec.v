(** Signals that carry bits. *)
From Coq Require Import ZArith Reals Bool List.
Import ListNotations.
From Verif Require Import Pam2Spec EyeReportSpec.
Local Open Scope R_scope.

(** What values of a 0 and of a 1 are. *)
Record bands := Bands { low_from : R; low_to : R; high_from : R; high_to : R }.
Definition shows (k : bands) (bit : bool) (v : R) : Prop :=
  if bit then high_from k <= v <= high_to k else low_from k <= v <= low_to k.
(** A sent signal: the middle of symbol 0, and all the bits. *)
Definition signal : Type := (R * (Z -> bool))%type.
Definition middle (period : R) (s : signal) (n : Z) : R := fst s + IZR n * period.
(** The samples of a record near the middle of a symbol show its bit. *)
Definition carries (k : bands) (period near td first : R) (y : list R) (s : signal) : Prop :=
  forall j n, (j < length y)%nat -> Rabs (first + INR j * td - middle period s n) <= near -> shows k (snd s n) (nth j y 0).
(** Clock edge number i is at the middle of symbol i, but for the jitter. *)
Definition clocks (period jitter : R) (edges : list R) (s : signal) : Prop :=
  forall i b, nth_error edges i = Some b -> Rabs (b - middle period s (Z.of_nat i)) <= jitter.
(** A record ((times, values), clock edges) of a signal. *)
Definition record_of (k : bands) (period near jitter td : R) (record : list R * list R * list R) (s : signal) : Prop :=
  (forall first, nth_error (fst (fst record)) 0 = Some first -> carries k period near td first (snd (fst record)) s)
  /\ clocks period jitter (snd record) s.
(** The symbols from number [fst part], [snd part] of them. *)
Definition numbers (part : nat * nat) : list Z := map Z.of_nat (seq (fst part) (snd part)).
(** All symbols inside the record, and none that is not. *)
Definition whole_part (t td : R) (record : list R * list R * list R) (part : nat * nat) : Prop :=
  (fst part + snd part <= length (snd record))%nat /\ exists first, nth_error (fst (fst record)) 0 = Some first /\ forall i b, nth_error (snd record) i = Some b ->
    let last := end_time td first (length (fst (fst record))) in
    (well_inside t td first last b -> (fst part <= i < fst part + snd part)%nat) /\
    ((fst part <= i < fst part + snd part)%nat -> within t td first last b).
(** A bit with its neighbours. *)
Definition pattern (s : signal) (n : Z) : decision := (snd s (n - 1)%Z, snd s n, snd s (n + 1)%Z).
(** Of the symbols of a part: the bits with neighbours, the bits and whether
    they differ from the bit before. *)
Definition patterns (sp : signal * (nat * nat)) : list decision := map (pattern (fst sp)) (numbers (snd sp)).
Definition sent_bits (sp : signal * (nat * nat)) : list Z := map (fun n => if snd (fst sp) n then 1 else 0)%Z (numbers (snd sp)).
Definition sent_changes (sp : signal * (nat * nat)) : list Z := map (fun n => if xorb (snd (fst sp) (n - 1)) (snd (fst sp) n) then 1 else 0)%Z (numbers (snd sp)).
Definition changes (sp : signal * (nat * nat)) : Prop := exists n, In n (numbers (snd sp)) /\ snd (fst sp) (n - 1)%Z <> snd (fst sp) n.
(** There is a symbol well inside its record with such a bit and neighbours. *)
Definition has_symbol (t td : R) (records : list (list R * list R * list R)) (sent : list signal) (P : decision -> Prop) : Prop :=
  exists record s first i b, In (record, s) (combine records sent) /\ nth_error (fst (fst record)) 0 = Some first /\ nth_error (snd record) i = Some b
    /\ well_inside t td first (end_time td first (length (fst (fst record)))) b /\ P (pattern s (Z.of_nat i)).
(** A waveform of a signal: samples every [td]. *)
Definition sampled (k : bands) (period near td : R) (w : list R * list R) (s : signal) : Prop :=
  exists first, fst w = map (fun j => first + INR j * td) (seq 0 (length (snd w))) /\ carries k period near td first (snd w) s.
(** The same signal with its symbols numbered from n. *)
Definition renumbered (n : Z) (s : signal) (period : R) : signal := (middle period s n, fun i => snd s (i + n)%Z).
