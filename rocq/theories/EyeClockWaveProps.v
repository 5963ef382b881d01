(** C80: given clock waveforms are read at the threshold of the data. *)
From Coq Require Import ZArith Reals Bool List Lia Lra Permutation.
Import ListNotations.
From Verif Require Import Base Num RBool LinesModel LinesSpec LinesProps MaskProofs StatsModel EyeImageModel EyeRunModel EyeRunSpec EyeRunProofs EyeRunPeriod EyeReportProps EyeLevelsProps.
From Verif Require EyeRProofs.
Local Open Scope R_scope.

(** [x] is a time at which the waveform, with straight lines between its
    samples, passes the level. *)
Definition passes (level : R) (w : list R * list R) (x : R) : Prop := exists j, straddles (snd w) level j /\ interpolates (fst w) (snd w) level j x.

Lemma crossing_passes t y i v x j : length t = length y -> crossing t y (Z.of_nat i) v false 0 = Ok (Some x, j) -> passes v (t, y) x.
Proof.
  intros L E. destruct (Nat.le_gt_cases 1 i) as [P|P]; [destruct (Nat.le_gt_cases (length y) i) as [Q|Q]|].
  - rewrite C03_crossing_outside in E by lia. discriminate.
  - destruct (C03_crossing_backward t y i v L (conj P Q)) as [(k & z & E' & _ & S & _ & I)|(_ & E')]; rewrite E' in E; [|discriminate]. injection E as -> _. exists k. split; assumption.
  - rewrite C03_crossing_outside in E by lia. discriminate.
Qed.
Lemma edges_pass t y rise half fall r f : length t = length y -> edges t y rise half fall = Ok (r, f) -> forall x, In (Some x) (r ++ f) -> passes half (t, y) x.
Proof.
  intros L E. unfold edges in E. apply bind_ok in E. destruct E as (y0 & _ & E). apply bind_ok in E. destruct E as ([[lw r'] f'] & F & E). injection E as -> ->.
  assert (G : forall is s s', (forall x, In (Some x) (snd (fst s) ++ snd s) -> passes half (t, y) x) -> foldM (edges_step t y rise half fall 0) s is = Ok s' -> forall x, In (Some x) (snd (fst s') ++ snd s') -> passes half (t, y) x).
  { clear F. induction is as [|i is IH]; intros s s' H F; [injection F as <-; exact H|]. cbn [foldM] in F. apply bind_ok in F. destruct F as (s1 & E1 & F). refine (IH s1 s' _ F). clear IH F.
    destruct s as [[lw' a] b]. cbn [fst snd] in H. unfold edges_step in E1. apply bind_ok in E1. destruct E1 as (yi & _ & E1). destruct lw'.
    - destruct (nlt rise yi); [|injection E1 as <-; exact H]. apply bind_ok in E1. destruct E1 as ([o j] & C & E1). injection E1 as <-. cbn [fst snd]. intros x I. rewrite !in_app_iff in I. destruct I as [[I|[I|[]]]|I]; [apply H, in_or_app; left; exact I| |apply H, in_or_app; right; exact I]. subst o. exact (crossing_passes _ _ _ _ _ _ L C).
    - destruct (nlt yi fall); [|injection E1 as <-; exact H]. apply bind_ok in E1. destruct E1 as ([o j] & C & E1). injection E1 as <-. cbn [fst snd]. intros x I. rewrite !in_app_iff in I. destruct I as [I|[I|[I|[]]]]; [apply H, in_or_app; left; exact I|apply H, in_or_app; right; exact I|]. subst o. exact (crossing_passes _ _ _ _ _ _ L C). }
  refine (G _ _ _ _ F). intros x [].
Qed.
Lemma selected_pass l p w e : length (fst w) = length (snd w) -> selected_edges l p w = Ok e -> forall x, In x e -> passes (l_half l) w x.
Proof.
  intros L E x I. destruct w as [t y]. cbn [fst snd] in L. unfold selected_edges in E. cbn [fst snd] in E. rewrite C09_edges_np_same in E by exact L. apply bind_ok in E. destruct E as ([r f] & E1 & E). cbn [fst snd] in E.
  apply (edges_pass t y _ _ _ r f L E1). apply in_or_app. destruct p.
  - apply finite_some in E. subst r. left. apply in_map. exact I.
  - apply finite_some in E. subst f. right. apply in_map. exact I.
  - apply bind_ok in E. destruct E as (a & A & E). apply bind_ok in E. destruct E as (b & B & E). apply finite_some in A. apply finite_some in B. subst r f. cbn [filter_edge_polarity fst snd] in E. injection E as <-.
    destruct (EyeRProofs.sorted_R (a ++ b)) as (_ & P). apply (Permutation_in _ (Permutation_sym P)) in I. apply in_app_or in I. destruct I as [I|I]; [left|right]; apply in_map; exact I.
Qed.

Section ClockWave.
Variable round6 : R -> R.
Variable fit : nat -> list R -> result (list (R * R * R)).
Variable aic : list (R * R * R) -> list R -> R.
Variable new_cdr : R -> cdr.
Variable percentile : list R -> R -> R.
Variable cast : R -> Z.
Variable fuel : nat.
Variable draw : drawing.
Let calculate := calculate round6 fit aic new_cdr percentile cast fuel draw.
Let find_levels := find_levels round6 fit aic.

(** Reported clock edges are where the clock waveforms pass the threshold of the
    data. *)
Theorem C80_threshold d e m e1 ck : calculate d e = (Ok m, e1) -> e_clocks e = Some ck -> e_clock_edges e = None ->
  exists l edges, find_levels (e_config e) (all_samples (e_waveforms e)) d = Ok l /\ get_clock_edges e1 = Ok (Some edges)
    /\ Forall2 (fun w es => forall x, In x es -> passes (l_half l) w x) (waves ck) edges /\ exists p, is_period edges p.
Proof.
  intros C CK NE. destruct (calculate_inv round6 fit aic new_cdr percentile cast fuel draw d e m e1 C) as (l & edges & t & h & dirs & im & FL & CL & SP & _ & _ & _ & _ & _ & _ & CE & _ & CA & _).
  exists l, edges. split; [exact FL|]. split; [unfold get_clock_edges; rewrite CA, CE; reflexivity|]. split.
  - unfold clock in CL. rewrite NE, CK in CL. cbn [clock_source] in CL. pose proof (waves_length ck) as WL. clear -CL WL. revert edges CL WL. generalize (waves ck) as wvs. induction wvs as [|w ws IH]; intros edges CL WL; cbn [mapM] in CL; [injection CL as <-; constructor|].
    apply bind_ok in CL. destruct CL as (es & E & CL). apply bind_ok in CL. destruct CL as (rest & E2 & CL). injection CL as <-. constructor; [exact (selected_pass l _ w es (WL w (or_introl eq_refl)) E)|]. apply IH; [exact E2|intros w' I; apply WL; right; exact I].
  - destruct (periods edges) as [|p ps] eqn:PE; [|exists p; apply periods_In; rewrite PE; left; reflexivity]. unfold symbol_period in SP. destruct edges as [|x r]; [discriminate|]. fold (periods (x :: r)) in SP. rewrite PE in SP. discriminate.
Qed.
(** C80 finding: a clock waveform that does not pass the threshold of the data,
    such as one of other levels, cannot be used. *)
Theorem C80_own_levels_refuted d e l ck : find_levels (e_config e) (all_samples (e_waveforms e)) d = Ok l -> e_clocks e = Some ck -> e_clock_edges e = None ->
  (forall w, In w (waves ck) -> (forall y, In y (snd w) -> y <= l_half l) \/ (forall y, In y (snd w) -> l_half l < y)) ->
  exists x, fst (calculate d e) = Err x.
Proof.
  intros FL CK NE NP. destruct (calculate d e) as [[m|x] e1] eqn:C; [|exists x; reflexivity]. exfalso. destruct (C80_threshold d e m e1 ck C CK NE) as (l' & edges & FL' & _ & F & p & (es & IE & k & a & b & A & _)). assert (l' = l) as -> by congruence.
  assert (G : exists w, In w (waves ck) /\ forall x, In x es -> passes (l_half l) w x).
  { clear -F IE. induction F as [|w e' ws es' H F IH]; [destruct IE|]. destruct IE as [<-|IE]; [exists w; split; [left; reflexivity|exact H]|]. destruct (IH IE) as (w' & I & P). exists w'. split; [right; exact I|exact P]. }
  destruct G as (w & IW & P). destruct (P a (nth_error_In _ _ A)) as (j & S & _). specialize (NP w IW).
  destruct S as (_ & u & v & U & V & S). apply nth_error_In in U. apply nth_error_In in V. destruct NP as [NP|NP]; pose proof (NP u U); pose proof (NP v V); lra.
Qed.
End ClockWave.
Print Assumptions C80_threshold.
Print Assumptions C80_own_levels_refuted.

(** ** A concrete case: the bits 0 1 1 0 as data, and a clock that is the data
    itself or the same at two fifths of its height. *)
From Verif Require Import EyeDebugProps EyeEdgesProofs EyeEdgesExample.
Definition slow_wave (scale : R) : ndarray :=
  NdArray [2; 15]%nat (fun i => match i with [0%nat; j] => 0 + INR j * 1 | [1%nat; j] => scale * nth j slow_y 0 | _ => 0 end).
Definition slow_config : config :=
  Config (Some (2 / 10)) (1 / 10) (Some 10000) BOTH None 1 true (2 / 10) (1 / 10) (5 / 100) (2 / 10) (8 / 10) 0 true (Some 0) (Some 1) None.
Lemma slow_waves s : waves (NdArray [1; 2; 15]%nat (fun i => at_ (slow_wave s) (tl i))) = [(map (fun j => 0 + INR j * 1) (seq 0 15), map (Rmult s) slow_y)].
Proof. reflexivity. Qed.
Example C80_met round6 fit aic new_cdr percentile cast fuel draw : exists e m e1 ck a b,
  construct (slow_wave 1) (Some (slow_wave 1)) None None 10 (Some (Some slow_config)) = Ok e
  /\ calculate round6 fit aic new_cdr percentile cast fuel draw false e = (Ok m, e1) /\ e_clocks e = Some ck /\ e_clock_edges e = None
  /\ get_clock_edges e1 = Ok (Some [[a; b]]) /\ Rabs (a - 3) <= 2 /\ Rabs (b - 11) <= 2.
Proof.
  assert (HE : exists e, construct (slow_wave 1) (Some (slow_wave 1)) None None 10 (Some (Some slow_config)) = Ok e) by (eexists; reflexivity). destruct HE as (e & HE).
  assert (FL : exists l, find_levels round6 fit aic slow_config (all_samples (e_waveforms e)) false = Ok l /\ l_rising l = 6 / 10 /\ l_half l = 1 / 2 /\ l_falling l = 4 / 10).
  { unfold find_levels. cbn [slow_config c_y_0 c_y_1 bind]. eexists. split; [reflexivity|]. cbn. repeat split; lra. }
  destruct FL as (l & FL & L1 & L2 & L3). destruct (C73_edges_met l L1 L2 L3) as (_ & _ & _ & _ & a & b & SE & _ & A & B).
  assert (W1 : waves (e_waveforms e) = [(map (fun j => 0 + INR j * 1) (seq 0 15), map (Rmult 1) slow_y)]) by (injection HE as <-; reflexivity).
  assert (W2 : exists ck, e_clocks e = Some ck /\ waves ck = [(map (fun j => 0 + INR j * 1) (seq 0 15), map (Rmult 1) slow_y)]) by (injection HE as <-; eexists; split; reflexivity). destruct W2 as (ck & CK & W2).
  assert (M1 : map (Rmult 1) slow_y = slow_y) by (rewrite <- (map_id slow_y) at 2; apply map_ext; intros; lra).
  assert (AB : 0 < b - a) by (pose proof (proj1 (Rabs_between _ _) A); pose proof (proj1 (Rabs_between _ _) B); lra).
  destruct (symbol_period_spec [[a; b]]) as (_ & SP & TP); [discriminate|discriminate|intros p [<-|[]]; exact AB|].
  edestruct (skip_completes round6 fit aic new_cdr percentile cast fuel draw false e l [[a; b]]) with (3 := SP) (4 := TP) as (m & e1 & CA & CE).
  - injection HE as <-. exact FL.
  - unfold clock. assert (NE : e_clock_edges e = None) by (injection HE as <-; reflexivity). rewrite NE, CK. cbn [clock_source]. rewrite W2, M1. cbn [mapM]. assert (CF : e_config e = slow_config) by (injection HE as <-; reflexivity). rewrite CF. unfold clock_of. cbn [slow_config c_polarity]. rewrite SE. reflexivity.
  - injection HE as <-. cbn. lra.
  - intros X. discriminate X.
  - rewrite W1. cbn. lia.
  - rewrite W1. intros w [<-|[]]. discriminate.
  - injection HE as <-. reflexivity.
  - injection HE as <-. reflexivity.
  - injection HE as <-. reflexivity.
  - injection HE as <-. cbn. lia.
  - injection HE as <-. cbn. lra.
  - injection HE as <-. cbn. lra.
  - exists e, m, e1, ck, a, b. split; [exact HE|]. split; [exact CA|]. split; [exact CK|]. split; [injection HE as <-; reflexivity|]. split; [exact CE|]. split; assumption.
Qed.
Example C80_own_levels_met round6 fit aic new_cdr percentile cast fuel draw : exists e x,
  construct (slow_wave 1) (Some (slow_wave (2 / 5))) None None 10 (Some (Some slow_config)) = Ok e
  /\ fst (calculate round6 fit aic new_cdr percentile cast fuel draw false e) = Err x.
Proof.
  assert (HE : exists e, construct (slow_wave 1) (Some (slow_wave (2 / 5))) None None 10 (Some (Some slow_config)) = Ok e) by (eexists; reflexivity). destruct HE as (e & HE).
  assert (FL : exists l, find_levels round6 fit aic slow_config (all_samples (e_waveforms e)) false = Ok l /\ l_half l = 1 / 2).
  { unfold find_levels. cbn [slow_config c_y_0 c_y_1 bind]. eexists. split; [reflexivity|]. cbn. lra. }
  destruct FL as (l & FL & LH).
  assert (W2 : exists ck, e_clocks e = Some ck /\ waves ck = [(map (fun j => 0 + INR j * 1) (seq 0 15), map (Rmult (2 / 5)) slow_y)]) by (injection HE as <-; eexists; split; reflexivity). destruct W2 as (ck & CK & W2).
  destruct (C80_own_levels_refuted round6 fit aic new_cdr percentile cast fuel draw false e l ck) as (x & E); [injection HE as <-; exact FL|exact CK|injection HE as <-; reflexivity| |exists e, x; split; assumption].
  rewrite W2. intros w [<-|[]]. left. cbn [snd]. rewrite LH. intros y I. apply in_map_iff in I. destruct I as (z & <- & I). assert (z <= 1); [|lra]. cbn in I. repeat (destruct I as [<-|I]; [lra|]). destruct I.
Qed.

