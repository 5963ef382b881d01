(** Properties of PAM2 sampling, bit stream and measures (C40, C41, C54, C55). *)
From Coq Require Import List ZArith Bool QArith Reals Lra Lia Sorted.
Import ListNotations.
From Verif Require Import Base Num RBool LinesModel LinesCyModel LinesCyProofs StatsModel UncertainProofs MaskModel MaskProofs
  LinesProofs EyeModel EyeSpec EyeProofs EyeRProofs EyeProps Pam2Model Pam2Spec Pam2Proofs.
Local Open Scope R_scope.

(** ** C40: vertical sampling *)

Lemma step3_good (t_sym t_delta t_zero : R) (y : list R) edges syms w s : 0 < t_sym -> 0 < t_delta ->
  step3_sample int_of_float float_mod t_sym t_delta t_zero (Z.of_nat (length y)) edges = Ok syms ->
  get_i_width int_of_float t_sym t_delta = Ok w -> In s syms -> good_symbol y t_delta w s.
Proof.
  intros Hs Hd E Ew Hin. split; [exact (step3_inside _ _ _ _ _ _ _ _ _ E Ew s Hin)|].
  destruct (step3_aligned _ _ _ _ _ _ _ Hs Hd E Hin) as (b & _ & -> & _). pose proof (float_mod_bounds b t_delta Hd). lra.
Qed.

(** Samples of a symbol: those of its window (see C38 and C39), time in unit
    intervals with the symbol centre at 1/2. *)
Definition samples_of (t0 y : list R) (w : Z) (t_sym : R) (s : R * Z) : list (R * R) :=
  combine (fst (window_fb t0 y w t_sym s)) (snd (window_fb t0 y w t_sym s)).

(** For every record and every clock: sampling succeeds, and there is one decision
    (previous, current, next) per symbol, each made by comparing the mean of a
    nonempty set of samples one symbol before, at and one symbol after the centre
    with the threshold; the edge directions and the transition counts are those of
    the decisions, and each level list holds exactly the samples of the symbols
    decided to be at that level (or to have that transition), in order. *)
Theorem C40_vertical (t_sym t_delta t_zero y_half level_width cross_width : R) (y : list R) edges syms w t0 :
  0 < t_sym -> 0 < t_delta ->
  let width := Rmax level_width (101 / 100 * t_delta / t_sym) in
  width < 1 ->
  step3_sample int_of_float float_mod t_sym t_delta t_zero (Z.of_nat (length y)) edges = Ok syms ->
  get_i_width int_of_float t_sym t_delta = Ok w -> window_axis w t_sym t_delta = Ok t0 ->
  let ps := samples_of t0 y w t_sym in
  exists v decs,
    sample_vertical int_of_float y syms t_delta t_sym y_half level_width cross_width = Ok v /\
    Forall2 (fun s d => decides (-1/2) width y_half (ps s) (prev d) /\
                        decides (1/2) width y_half (ps s) (cur d) /\
                        decides (3/2) width y_half (ps s) (next d)) syms decs /\
    v_edge_dir v = map edge_of decs /\
    (forall q, v_transitions v q = Z.of_nat (count_occ decision_dec decs q)) /\
    zsum (map (v_transitions v) all_decisions) = Z.of_nat (length syms) /\
    let filed keep c width := flat_map (fun sd : R * Z * decision => if keep (snd sd) : bool then values_in c width (ps (fst sd)) else []) (combine syms decs) in
    v_0 v = filed (fun d => negb (cur d)) (1/2) level_width /\
    v_1 v = filed cur (1/2) level_width /\
    v_cross v = filed (fun d => xorb (prev d) (cur d)) 0 cross_width /\
    v_0_cross v = filed (fun d => negb (prev d) && negb (cur d)) (1/2) level_width /\
    v_1_cross v = filed (fun d => prev d && cur d) (1/2) level_width /\
    v_avg v = flat_map (fun s => values_in (1/2) 1 (ps s)) syms.
Proof.
  intros Hs Hd width Hw E Ew Et ps. unfold sample_vertical. rewrite Ew. cbn [bind]. rewrite Et. cbn [bind].
  destruct (vertical_fold y t_delta t_sym y_half level_width cross_width w t0 Hs Hd Ew Et Hw syms
              ltac:(intros s Hin; exact (step3_good _ _ _ _ _ _ _ _ Hs Hd E Ew Hin)) no_vertical)
    as (v & decs & E' & F & H1 & H2 & H3 & H4 & H5 & H6 & H7 & H8).
  exists v, decs. split; [exact E'|]. split; [exact F|]. split; [exact H1|]. split; [exact H2|]. split.
  - assert (G : map (v_transitions v) all_decisions = map (fun q => Z.of_nat (count_occ decision_dec decs q)) all_decisions)
      by (apply map_ext; intros q; rewrite H2; reflexivity).
    rewrite G, count_sum. f_equal. symmetry. exact (Forall2_len _ _ _ F).
  - repeat split; assumption.
Qed.
Print Assumptions C40_vertical.

(** The compiled form computes the same. *)
Theorem C40_compiled_agrees (t_sym t_delta t_zero y_half level_width cross_width : R) (y : list R) edges syms :
  0 < t_sym -> 0 < t_delta ->
  step3_sample int_of_float float_mod t_sym t_delta t_zero (Z.of_nat (length y)) edges = Ok syms ->
  sample_vertical_c int_of_float y syms t_delta t_sym y_half level_width cross_width =
  sample_vertical int_of_float y syms t_delta t_sym y_half level_width cross_width.
Proof.
  intros Hs Hd E. apply sample_vertical_c_agree. intros w s Ew Hin. exact (step3_inside _ _ _ _ _ _ _ _ _ E Ew s Hin).
Qed.
Print Assumptions C40_compiled_agrees.

(** With level windows of at least 1.01 sample periods, the mean of the samples
    filed under 1 is above the threshold and that of those filed under 0 is not,
    so the measured amplitude is positive whenever both levels occur. *)
Theorem C40_levels_ordered (t_sym t_delta t_zero y_half level_width cross_width : R) (y : list R) edges syms v :
  0 < t_sym -> 0 < t_delta -> 101 / 100 * t_delta / t_sym <= level_width < 1 ->
  step3_sample int_of_float float_mod t_sym t_delta t_zero (Z.of_nat (length y)) edges = Ok syms ->
  sample_vertical int_of_float y syms t_delta t_sym y_half level_width cross_width = Ok v ->
  (v_1 v <> [] -> y_half < mean (v_1 v)) /\ (v_0 v <> [] -> mean (v_0 v) <= y_half) /\
  (forall percentile noise_floor, v_0 v <> [] -> v_1 v <> [] -> exists u,
     m_amp (measure_y percentile noise_floor v) = Some u /\ value u = mean (v_1 v) - mean (v_0 v) /\ 0 < value u).
Proof.
  intros Hs Hd Hlw E Ev.
  destruct (get_i_width int_of_float t_sym t_delta) as [w|] eqn:Ew; [|discriminate].
  destruct (window_axis w t_sym t_delta) as [t0|] eqn:Et.
  2:{ unfold sample_vertical in Ev. rewrite Ew in Ev. cbn [bind] in Ev. rewrite Et in Ev. discriminate. }
  assert (Ewd : Rmax level_width (101 / 100 * t_delta / t_sym) = level_width) by (apply Rmax_left; lra).
  destruct (C40_vertical t_sym t_delta t_zero y_half level_width cross_width y edges syms w t0 Hs Hd ltac:(cbv zeta; rewrite Ewd; lra) E Ew Et)
    as (v' & decs & E' & F & _ & _ & _ & H0 & H1 & _). rewrite Ewd in F. rewrite Ev in E'. injection E' as <-.
  rewrite (flat_map_if (fun sd : R * Z * decision => negb (cur (snd sd)))) in H0. rewrite (flat_map_if (fun sd : R * Z * decision => cur (snd sd))) in H1.
  assert (G1 : v_1 v <> [] -> y_half < mean (v_1 v)).
  { intros Hne. rewrite H1 in * . apply concat_above; [|exact Hne]. intros l Hl. apply in_map_iff in Hl. destruct Hl as (sd & <- & Hin).
    apply filter_In in Hin. destruct Hin as [Hin Hc]. pose proof (Forall2_combine _ _ _ _ F Hin) as (_ & (Hn & Hm) & _).
    split; [exact Hn|]. apply Hm. exact Hc. }
  assert (G0 : v_0 v <> [] -> mean (v_0 v) <= y_half).
  { intros Hne. rewrite H0 in * . apply concat_below; [|exact Hne]. intros l Hl. apply in_map_iff in Hl. destruct Hl as (sd & <- & Hin).
    apply filter_In in Hin. destruct Hin as [Hin Hc]. pose proof (Forall2_combine _ _ _ _ F Hin) as (_ & (Hn & Hm) & _).
    split; [exact Hn|]. destruct (Rle_lt_dec (mean (values_in (1/2) level_width (samples_of t0 y w t_sym (fst sd)))) y_half) as [Hle|Hlt]; [exact Hle|].
    apply Hm in Hlt. rewrite Hlt in Hc. discriminate. }
  split; [exact G1|]. split; [exact G0|]. intros pc nf N0 N1. unfold measure_y. cbn [m_amp].
  destruct (usamples_spec _ N0) as (u0 & E0 & M0 & _). destruct (usamples_spec _ N1) as (u1 & E1 & M1 & _). rewrite E0, E1.
  cbn [lift2 usub]. eexists. split; [reflexivity|]. cbn [value].
  assert (V0 : value u0 = mean (v_0 v)) by (unfold mean; rewrite <- M0; field; pose proof (len_ne _ N0); lra).
  assert (V1 : value u1 = mean (v_1 v)) by (unfold mean; rewrite <- M1; field; pose proof (len_ne _ N1); lra).
  rewrite V0, V1. specialize (G0 N0). specialize (G1 N1). split; [reflexivity|lra].
Qed.
Print Assumptions C40_levels_ordered.

(** A square wave of period 8 sampled at 1/4 symbol: sampled over the rationals. *)
Definition square (n : nat) : list Q := map (fun i => if (i mod 16 <? 8)%nat then 0%Q else 1%Q) (seq 0 n).
Definition square_edges : list Q := map (fun i => (inject_Z (Z.of_nat i) + (1#8))%Q) (seq 0 20).
Definition square_symbols : list (Q * Z) :=
  match step3_sample truncQ modQ 1%Q (1#4)%Q 0%Q 80 square_edges with Ok l => l | Err _ => [] end.
Definition report (r : result (@vertical Q)) :=
  match r with
  | Ok v => Some (v_edge_dir v, map (v_transitions v) all_decisions, v_cross v, length (v_0 v), length (v_1 v))
  | Err _ => None
  end.
Example C40_witness :
  length square_symbols = 17%nat /\
  report (sample_vertical truncQ (square 80) square_symbols (1#4)%Q 1%Q (1#2)%Q (1#3)%Q (1#3)%Q) =
    Some ([1; 0; -1; 0; 1; 0; -1; 0; 1; 0; -1; 0; 1; 0; -1; 0; 1]%Z, [0; 4; 0; 5; 4; 0; 4; 0]%Z,
          [0; 0; 1; 1; 0; 0; 1; 1; 0; 0; 1; 1; 0; 0; 1; 1; 0; 0]%Q, 16%nat, 18%nat).
Proof. vm_compute. split; reflexivity. Qed.

(** The width hypothesis is needed: a level window of five symbols takes every
    sample into the window of the previous symbol, leaving none for the decision
    of the symbol itself, and a record that is always high is decided low. *)
Example C40_wide_window_refuted :
  report (sample_vertical truncQ (repeat 1%Q 80) square_symbols (1#4)%Q 1%Q (1#2)%Q 5%Q (1#3)%Q) =
    Some (repeat (-1)%Z 17, [0; 0; 0; 0; 17; 0; 0; 0]%Z, repeat 1%Q 34, 221%nat, 0%nat).
Proof. vm_compute. reflexivity. Qed.

(** The samples reported at the crossing for symbols without a transition are
    documented as taken in the crossing window; they are those of the symbol
    centre: here the record is low except around every crossing, and no high
    sample is reported. *)
Example C40_cross_levels_refuted :
  let y := map (fun i => if (i mod 4 =? 2)%nat then (1#4)%Q else 0%Q) (seq 0 80) in
  match sample_vertical truncQ y square_symbols (1#4)%Q 1%Q (1#2)%Q (1#3)%Q (1#3)%Q with
  | Ok v => v_cross v = [] /\ v_0_cross v = v_0 v /\ Forall (fun x => x = 0%Q) (v_0_cross v) /\ length (v_0_cross v) = 34%nat
  | Err _ => False
  end.
Proof. vm_compute. repeat split; try reflexivity. repeat constructor. Qed.

(** ** C41: bit stream *)

(** NRZ-L: one bit per symbol, equal to the decided symbol, when consecutive
    decisions agree and there is an edge; NRZ-M: one bit per symbol, marking
    exactly the edges. *)
Theorem C41_bit_stream (decs : list (list decision)) :
  (forall l, In l decs -> chained l /\ exists d, In d l /\ edge_of d <> 0%Z) ->
  get_bit_stream true (Some (map (map edge_of) decs)) false = Ok (map (map (fun d => if cur d then 1 else 0)%Z) decs).
Proof.
  intros Hd. unfold get_bit_stream. cbn [negb]. f_equal. rewrite map_map. apply map_ext_in. intros l Hl.
  destruct (Hd l Hl) as [Hc He]. rewrite bits_nrzl by assumption. reflexivity.
Qed.
Print Assumptions C41_bit_stream.
Theorem C41_toggle_stream (decs : list (list decision)) :
  get_bit_stream true (Some (map (map edge_of) decs)) true = Ok (map (map (fun d => if xorb (prev d) (cur d) then 1 else 0)%Z) decs).
Proof.
  unfold get_bit_stream. cbn [negb]. f_equal. rewrite map_map. apply map_ext. intros l. unfold bits_of. rewrite map_map.
  apply map_ext. intros d. unfold edge_of. destruct (prev d), (cur d); reflexivity.
Qed.
Print Assumptions C41_toggle_stream.

(** For any edge directions at all, consistent or not: one bit (0 or 1) per
    symbol, and from an edge until the next one the bit is the edge's direction. *)
Theorem C41_last_edge (edge_dir : list Z) :
  exists bits, get_bit_stream true (Some [edge_dir]) false = Ok [bits] /\
    length bits = length edge_dir /\ Forall (fun b => b = 0 \/ b = 1)%Z bits /\
    forall before e after k, edge_dir = before ++ e :: after -> (e = 1 \/ e = -1)%Z -> (k <= length after)%nat ->
      (forall i x, (i < k)%nat -> nth_error after i = Some x -> x = 0%Z) ->
      nth_error bits (length before + k) = Some (if (e =? 1)%Z then 1 else 0)%Z.
Proof.
  eexists. split; [reflexivity|]. unfold bits_of. cbv zeta. split; [apply nrzl_length|]. split.
  - apply nrzl_binary. destruct (filter (fun b => negb (b =? 0)%Z) edge_dir) as [|b r]; [left; reflexivity|].
    destruct (b =? 1)%Z; [left|right]; reflexivity.
  - intros before e after k -> He Hk Hz. apply nrzl_after; assumption.
Qed.
Print Assumptions C41_last_edge.

(** Asking before calculating is a RuntimeError; measuring must not have been
    skipped. *)
Theorem C41_errors edge_dir is_nrzm :
  get_bit_stream false edge_dir is_nrzm = Err RuntimeError /\ get_bit_stream true None is_nrzm = Err TypeError.
Proof. split; reflexivity. Qed.
Print Assumptions C41_errors.

(** Decisions of the bits 0 1 1 0 1: consistent, with edges. *)
Definition bits_01101 : list decision :=
  [(false,false,true); (false,true,true); (true,true,false); (true,false,true); (false,true,false)].
Lemma chained_cons a b l : prev b = cur a -> chained (b :: l) -> chained (a :: b :: l).
Proof.
  intros Hp Hc [|x l1] c d l2 E; cbn in E; [injection E; intros; subst; exact Hp|].
  injection E as _ E. exact (Hc l1 c d l2 E).
Qed.
Example C41_witness : chained bits_01101 /\ (exists d, In d bits_01101 /\ edge_of d <> 0%Z) /\
  get_bit_stream true (Some [map edge_of bits_01101]) false = Ok [[0; 1; 1; 0; 1]%Z].
Proof.
  split.
  - repeat (apply chained_cons; [reflexivity|]). intros [|? [|? l]] a b l' E; discriminate.
  - split; [|reflexivity]. exists (false,true,true). split; [cbn; tauto|]. cbn. discriminate.
Qed.
(** Without an edge the stream is all zeros, also when all symbols are high. *)
Example C41_constant_high_refuted :
  get_bit_stream true (Some [map edge_of (repeat (true,true,true) 4)]) false = Ok [[0; 0; 0; 0]%Z] /\
  map (fun d => if cur d then 1 else 0)%Z (repeat (true,true,true) 4) = [1; 1; 1; 1]%Z.
Proof. split; reflexivity. Qed.

(** ** C55: horizontal sampling *)

Lemma in_combine_map_fst {X Y} (l : list X) (l' : list Y) : length l = length l' -> map fst (combine l l') = l.
Proof. revert l'. induction l as [|x l IH]; intros [|y l'] E; cbn in * ; try discriminate; [reflexivity|]. f_equal. apply IH. lia. Qed.
Lemma in_combine_map_snd {X Y} (l : list X) (l' : list Y) : length l = length l' -> map snd (combine l l') = l'.
Proof. revert l'. induction l as [|x l IH]; intros [|y l'] E; cbn in * ; try discriminate; [reflexivity|]. f_equal. apply IH. lia. Qed.

(** The times of the samples near the crossing level, within half a symbol of the
    left and right crossing. *)
Definition left_times (level height : R) (ps : list (R * R)) : list R :=
  filter (fun t => Rleb (-1/2) t && Rleb t (1/2)) (times_at level height ps).
Definition right_times (level height : R) (ps : list (R * R)) : list R :=
  filter (fun t => Rltb (1/2) t && Rleb t (3/2)) (times_at level height ps).

(** What the horizontal sample lists are, given the part of each symbol's window
    that is searched for its edge. *)
Definition reports (height y_cross edge_lower edge_upper : R) (ps : R * Z -> list (R * R)) (syms : list (R * Z)) (edge_dir : list Z)
           (parts : list (list (R * R))) (h : @horizontal R) : Prop :=
  h_left h = flat_map (fun s => left_times y_cross height (ps s)) syms /\
  h_right h = flat_map (fun s => right_times y_cross height (ps s)) syms /\
  h_rise_lower h = edge_times 1 edge_lower height edge_dir parts /\
  h_rise_upper h = edge_times 1 edge_upper height edge_dir parts /\
  h_rise_half h = edge_times 1 (1/2) height edge_dir parts /\
  h_fall_lower h = edge_times (-1) edge_lower height edge_dir parts /\
  h_fall_upper h = edge_times (-1) edge_upper height edge_dir parts /\
  h_fall_half h = edge_times (-1) (1/2) height edge_dir parts.

Section Horizontal.
Variables (t_sym t_delta t_zero y_zero y_ua y_cross height edge_lower edge_upper : R) (y : list R) (edges : list R) (syms : list (R * Z)) (w : Z) (t0 : list R)
          (edge_dir : list Z).
Hypothesis Hs : 0 < t_sym.
Hypothesis Hd : 0 < t_delta.
Hypothesis E : step3_sample int_of_float float_mod t_sym t_delta t_zero (Z.of_nat (length y)) edges = Ok syms.
Hypothesis Ew : get_i_width int_of_float t_sym t_delta = Ok w.
Hypothesis Et : window_axis w t_sym t_delta = Ok t0.
Hypothesis Hl : length edge_dir = length syms.
Hypothesis He : Forall (fun e => e = 0 \/ e = 1 \/ e = -1)%Z edge_dir.
Let yn := map (fun v => (v - y_zero) / y_ua) y.
Let ps := samples_of t0 yn w t_sym.
Lemma horizontal_ok : forall se, In se (with_edges syms edge_dir) -> in_record yn w (fst se) /\ (snd se = 0 \/ snd se = 1 \/ snd se = -1)%Z.
Proof.
  intros [s e] Hin. split.
  - apply in_combine_l in Hin. unfold in_record, yn. rewrite map_length. exact (step3_inside _ _ _ _ _ _ _ _ _ E Ew s Hin).
  - apply in_combine_r in Hin. rewrite Forall_forall in He. exact (He e Hin).
Qed.
Lemma totals_reports h parts :
  totals yn t_sym ((y_cross - y_zero) / y_ua) edge_lower edge_upper height w t0 (with_edges syms edge_dir) no_horizontal h parts ->
  reports height ((y_cross - y_zero) / y_ua) edge_lower edge_upper ps syms edge_dir parts h.
Proof.
  intros T. unfold totals in T. 
  assert (Em : map snd (@with_edges R syms edge_dir) = edge_dir) by (apply in_combine_map_snd; symmetry; exact Hl). rewrite Em in T.
  destruct T as (H1 & H2 & H3 & H4 & H5 & H6 & H7 & H8). unfold reports.
  assert (G : forall f : R * Z -> list R, flat_map (fun se : @symbol R * Z => f (fst se)) (with_edges syms edge_dir) = flat_map f syms).
  { intros f. unfold with_edges. rewrite <- (in_combine_map_fst syms edge_dir) at 2 by congruence. rewrite !flat_map_concat_map, map_map. reflexivity. }
  rewrite H1, H2, H3, H4, H5, H6, H7, H8. unfold no_horizontal. cbn [h_rise_lower h_rise_upper h_rise_half h_fall_lower h_fall_upper h_fall_half h_left h_right app].
  repeat split.
  - rewrite (G (fun s => filter in_left (times_at ((y_cross - y_zero) / y_ua) height (points (window_fb t0 yn w t_sym s))))).
    apply flat_map_ext. intros s. apply filter_ext. intros t. apply in_left_R.
  - rewrite (G (fun s => filter in_right (times_at ((y_cross - y_zero) / y_ua) height (points (window_fb t0 yn w t_sym s))))).
    apply flat_map_ext. intros s. apply filter_ext. intros t. apply in_right_R.
Qed.
End Horizontal.

(** For every record, clock and edge directions (one per symbol): both forms
    succeed without reading outside of the record, and report, in order, exactly
    the times of the samples that lie in the height window around the crossing
    level (left and right of the symbol) and around the lower, upper and middle
    levels of the edges in the given direction.  The fallback searches an edge
    between the extremes of the symbol's window, the compiled form from the start
    of the window to the symbol's centre. *)
Theorem C55_horizontal (t_sym t_delta t_zero y_zero y_ua y_cross height edge_lower edge_upper : R) (y : list R) edges syms w t0 edge_dir :
  0 < t_sym -> 0 < t_delta ->
  step3_sample int_of_float float_mod t_sym t_delta t_zero (Z.of_nat (length y)) edges = Ok syms ->
  get_i_width int_of_float t_sym t_delta = Ok w -> window_axis w t_sym t_delta = Ok t0 ->
  length edge_dir = length syms -> Forall (fun e => e = 0 \/ e = 1 \/ e = -1)%Z edge_dir ->
  let ps := samples_of t0 (map (fun v => (v - y_zero) / y_ua) y) w t_sym in
  let level := (y_cross - y_zero) / y_ua in
  exists h h_c parts,
    sample_horizontal int_of_float y syms edge_dir t_delta t_sym y_zero y_ua y_cross height edge_lower edge_upper = Ok h /\
    sample_horizontal_c int_of_float y syms edge_dir t_delta t_sym y_zero y_ua y_cross height edge_lower edge_upper = Ok h_c /\
    Forall2 (fun se part => swing (Z.to_nat w) (snd se) (ps (fst se)) part) (combine syms edge_dir) parts /\
    reports height level edge_lower edge_upper ps syms edge_dir parts h /\
    reports height level edge_lower edge_upper ps syms edge_dir (map (fun s => filter (fun p => Rleb (fst p) (1/2)) (ps s)) syms) h_c.
Proof.
  intros Hs Hd E Ew Et Hl He ps level. destruct (i_width_R _ _ _ Hs Hd Ew) as (Hw & _). destruct (window_axis_length _ _ _ _ Et) as [_ Ht].
  set (yn := map (fun v => (v - y_zero) / y_ua) y).
  assert (Hok : forall se, In se (with_edges syms edge_dir) -> in_record yn w (fst se) /\ (snd se = 0 \/ snd se = 1 \/ snd se = -1)%Z).
  { exact (horizontal_ok t_sym t_delta t_zero y_zero y_ua y edges syms w edge_dir E Ew He). }
  destruct (horizontal_fold_R yn t_sym level edge_lower edge_upper height w t0 ltac:(lia) Ht _ Hok no_horizontal) as (h & parts & E1 & F & T).
  destruct (horizontal_fold_c_R yn t_sym level edge_lower edge_upper height w t0 ltac:(lia) Ht _ Hok no_horizontal) as (h_c & E2 & T2).
  exists h, h_c, parts. unfold sample_horizontal, sample_horizontal_c. rewrite Ew. cbn [bind]. rewrite Et. cbn [bind].
  assert (Hlt : (length edge_dir <? length syms)%nat = false) by (apply Nat.ltb_ge; lia). rewrite Hlt.
  change (normalise_y y y_zero y_ua) with yn.
  change (ndiv (nsub y_cross y_zero) y_ua) with level.
  rewrite E1, E2. split; [reflexivity|]. split; [reflexivity|]. split; [exact F|]. split.
  - exact (totals_reports t_sym y_zero y_ua y_cross height edge_lower edge_upper y syms w t0 edge_dir Hl h parts T).
  - replace (map (fun s => filter (fun p => Rleb (fst p) (1/2)) (ps s)) syms)
      with (map (fun se : R * Z * Z => upto_half (ps (fst se))) (with_edges syms edge_dir)).
    2:{ unfold with_edges. rewrite <- (in_combine_map_fst syms edge_dir) at 2 by congruence. rewrite map_map. reflexivity. }
    exact (totals_reports t_sym y_zero y_ua y_cross height edge_lower edge_upper y syms w t0 edge_dir Hl h_c _ T2).
Qed.
Print Assumptions C55_horizontal.

(** In particular every reported time belongs to a sample with that value, the
    left crossing times are in [-1/2, 1/2], the right ones in (1/2, 3/2]. *)
Theorem C55_crossing_times (t_sym t_delta t_zero y_zero y_ua y_cross height edge_lower edge_upper : R) (y : list R) edges syms edge_dir h :
  0 < t_sym -> 0 < t_delta ->
  step3_sample int_of_float float_mod t_sym t_delta t_zero (Z.of_nat (length y)) edges = Ok syms ->
  length edge_dir = length syms -> Forall (fun e => e = 0 \/ e = 1 \/ e = -1)%Z edge_dir ->
  (sample_horizontal int_of_float y syms edge_dir t_delta t_sym y_zero y_ua y_cross height edge_lower edge_upper = Ok h \/
   sample_horizontal_c int_of_float y syms edge_dir t_delta t_sym y_zero y_ua y_cross height edge_lower edge_upper = Ok h) ->
  (forall t, In t (h_left h) -> -1/2 <= t <= 1/2) /\ (forall t, In t (h_right h) -> 1/2 < t <= 3/2).
Proof.
  intros Hs Hd E Hl He Ho.
  destruct (get_i_width int_of_float t_sym t_delta) as [w|] eqn:Ew; [|discriminate].
  destruct (window_axis w t_sym t_delta) as [t0|] eqn:Et.
  2:{ unfold sample_horizontal, sample_horizontal_c in Ho. rewrite Ew in Ho. cbn [bind] in Ho. rewrite Et in Ho. destruct Ho; discriminate. }
  destruct (C55_horizontal _ _ _ y_zero y_ua y_cross height edge_lower edge_upper _ _ _ _ _ _ Hs Hd E Ew Et Hl He)
    as (h1 & h2 & parts & E1 & E2 & _ & (L1 & R1 & _) & (L2 & R2 & _)).
  rewrite E1, E2 in Ho. assert (G : h_left h = h_left h1 /\ h_right h = h_right h1).
  { destruct Ho as [Q|Q]; injection Q as <-; split; congruence. }
  destruct G as [-> ->]. rewrite L1, R1. split; intros t Ht; apply in_flat_map in Ht; destruct Ht as (s & _ & Ht); apply filter_In in Ht; destruct Ht as [_ Ht];
    apply andb_true_iff in Ht; destruct Ht as [H1 H2].
  - apply Rleb_true in H1. apply Rleb_true in H2. lra.
  - apply Rltb_true in H1. apply Rleb_true in H2. lra.
Qed.
Print Assumptions C55_crossing_times.

Definition reportH (r : result (@horizontal Q)) :=
  match r with
  | Ok h => Some (h_rise_lower h, h_rise_half h, h_fall_upper h, length (h_left h), length (h_right h))
  | Err _ => None
  end.
(** A ramp up and down; edges rise over one symbol.  The two forms report the
    same crossing times but not the same edge times: the compiled form also counts
    the end of the previous, falling edge at the start of the window. *)
Definition saw (n : nat) : list Q := map (fun i => let k := (i mod 8)%nat in
   (if (k <=? 4)%nat then Z.of_nat k # 4 else (8 - Z.of_nat k) # 4)%Q) (seq 0 n).
Definition saw_dirs : list Z := map (fun i => if (i mod 2 =? 0)%nat then (-1)%Z else 1%Z) (seq 0 17).
Example C55_witness :
  reportH (sample_horizontal truncQ (saw 80) square_symbols saw_dirs (1#4)%Q 1%Q 0%Q 1%Q (1#2)%Q (1#20)%Q (1#4)%Q (3#4)%Q) =
    Some (repeat (-3#8)%Q 8, repeat (-1#8)%Q 8, repeat (-3#8)%Q 9, 17%nat, 17%nat).
Proof. vm_compute. reflexivity. Qed.
Example C55_agree_refuted :
  match sample_horizontal truncQ (saw 80) square_symbols saw_dirs (1#4)%Q 1%Q 0%Q 1%Q (1#2)%Q (1#20)%Q (1#4)%Q (3#4)%Q,
        sample_horizontal_c truncQ (saw 80) square_symbols saw_dirs (1#4)%Q 1%Q 0%Q 1%Q (1#2)%Q (1#20)%Q (1#4)%Q (3#4)%Q with
  | Ok h, Ok h' => h_left h = h_left h' /\ h_right h = h_right h' /\ length (h_rise_lower h) = 8%nat /\ length (h_rise_lower h') = 16%nat
  | _, _ => False
  end.
Proof. vm_compute. repeat split. Qed.

(** ** C54: derived measures *)

(** Vertical measures, whenever both levels were sampled. *)
Theorem C54_vertical percentile noise_floor (v : @vertical R) : v_0 v <> [] -> v_1 v <> [] ->
  let m := measure_y percentile noise_floor v in
  exists y0 y1 amp height,
    m_y_0 m = Some y0 /\ value y0 = mean (v_0 v) /\ m_y_1 m = Some y1 /\ value y1 = mean (v_1 v) /\
    m_amp m = Some amp /\ value amp = value y1 - value y0 /\ stddev amp ^ 2 = stddev y1 ^ 2 + stddev y0 ^ 2 /\
    m_height m = Some height /\ value height = value amp - 3 * (stddev y1 + stddev y0) /\ value height <= value amp /\
    (value amp <> 0 -> exists r, m_height_r m = Some r /\ value r * value amp = value height) /\
    (stddev y1 + stddev y0 <> 0 -> exists snr, m_snr m = Some snr /\ value snr * (stddev y1 + stddev y0) = value amp) /\
    (value y0 <> noise_floor -> exists er, m_extinction_ratio m = Some er /\ value er * (value y0 - noise_floor) = value y1 - noise_floor) /\
    (v_cross v = [] -> m_y_cross_r m = None) /\
    (v_cross v <> [] -> 0 < value amp -> exists r, m_y_cross_r m = Some r /\
       mean (v_cross v) = value y0 + value r * value amp /\
       (value y0 <= mean (v_cross v) <= value y1 -> 0 <= value r <= 1)).
Proof.
  intros N0 N1 m.
  destruct (usamples_spec _ N0) as (u0 & E0 & M0 & _ & P0 & _). destruct (usamples_spec _ N1) as (u1 & E1 & M1 & _ & P1 & _).
  assert (V0 : value u0 = mean (v_0 v)) by (unfold mean; rewrite <- M0; field; pose proof (len_ne _ N0); lra).
  assert (V1 : value u1 = mean (v_1 v)) by (unfold mean; rewrite <- M1; field; pose proof (len_ne _ N1); lra).
  unfold m, measure_y. cbn [m_y_0 m_y_1 m_amp m_height m_height_r m_snr m_extinction_ratio m_y_cross_r]. rewrite E0, E1. cbn [lift2 lift1].
  eexists u0, u1, _, _. split; [reflexivity|]. split; [exact V0|]. split; [reflexivity|]. split; [exact V1|].
  split; [reflexivity|]. split; [reflexivity|]. split; [apply usub_var|]. split; [reflexivity|].
  cbn [usub uadd udiv value stddev]. split; [lra|]. split; [lra|].
  split; [intros Hn; eexists; split; [reflexivity|]; cbn [value]; field; exact Hn|].
  split; [intros Hn; eexists; split; [reflexivity|]; cbn [value]; field; exact Hn|].
  split; [intros Hn; eexists; split; [reflexivity|]; cbn [value]; field; lra|].
  split; [intros ->; reflexivity|].
  intros Nc Ha. destruct (usamples_spec _ Nc) as (uc & Ec & Mc & _). rewrite Ec. cbn [lift2].
  assert (Vc : value uc = mean (v_cross v)) by (unfold mean; rewrite <- Mc; field; pose proof (len_ne _ Nc); lra).
  eexists. split; [reflexivity|]. cbn [udiv usub value]. rewrite Vc. split; [field; lra|].
  intros Hb. split.
  - apply Rmult_le_pos; [lra|]. left. apply Rinv_0_lt_compat. exact Ha.
  - apply Rmult_le_reg_r with (value u1 - value u0); [exact Ha|]. unfold Rdiv. rewrite Rmult_assoc, Rinv_l by lra. lra.
Qed.
Print Assumptions C54_vertical.

(** A level never sampled makes every measure derived from it undefined (NaN). *)
Theorem C54_vertical_undefined percentile noise_floor (v : @vertical R) : v_0 v = [] \/ v_1 v = [] ->
  let m := measure_y percentile noise_floor v in
  m_amp m = None /\ m_height m = None /\ m_height_r m = None /\ m_snr m = None /\ m_y_cross_r m = None /\
  m_extinction_ratio m = None /\ m_vecp m = None.
Proof.
  intros Hn m. unfold m, measure_y. cbn [m_amp m_height m_height_r m_snr m_extinction_ratio m_y_cross_r m_vecp].
  destruct Hn as [E|E]; rewrite E; cbn [usamples];
  destruct (usamples (v_1 v)), (usamples (v_0 v)), (usamples (v_cross v)), (v_0 v); repeat split; reflexivity.
Qed.
Print Assumptions C54_vertical_undefined.

(** Horizontal measures: the measured symbol is longer than 0 and at most two
    nominal symbols, its rate is its inverse, the width is shorter by six standard
    deviations, the mark and space add up to two nominal symbols, their distortion
    is half of their difference; the jitter is nonnegative, at most one symbol,
    and its rms value at most half of its peak to peak value. *)
Theorem C54_horizontal (t_sym : R) (h : @horizontal R) : 0 < t_sym ->
  (forall t, In t (h_left h) -> -1/2 <= t <= 1/2) -> (forall t, In t (h_right h) -> 1/2 < t <= 3/2) ->
  let m := measure_t t_sym h in
  (h_left h <> [] -> h_right h <> [] -> exists sym f width wr sl sr,
     m_t_sym m = Some sym /\ 0 < value sym <= 2 * t_sym /\
     m_f_sym m = Some f /\ value f * value sym = 1 /\
     0 <= sl /\ 0 <= sr /\ m_width m = Some width /\ value width = value sym - 3 * (sl + sr) /\
     stddev sym ^ 2 = sl ^ 2 + sr ^ 2 /\
     m_width_r m = Some wr /\ value wr = value width / value sym /\ value wr <= 1) /\
  (h_rise_half h <> [] -> h_fall_half h <> [] -> exists t0 t1 dcd,
     m_t_0 m = Some t0 /\ m_t_1 m = Some t1 /\ value t0 + value t1 = 2 * t_sym /\
     m_dcd m = Some dcd /\ value dcd = (value t1 - value t0) / 2 /\ value dcd = (mean (h_fall_half h) - mean (h_rise_half h)) * t_sym) /\
  (h_left h <> [] -> exists pp rms, m_jitter_pp m = Some pp /\ m_jitter_rms m = Some rms /\ 0 <= rms <= pp / 2 /\ pp <= t_sym) /\
  (h_left h = [] -> m_t_sym m = None /\ m_f_sym m = None /\ m_width m = None /\ m_jitter_pp m = None /\ m_jitter_rms m = None).
Proof.
  intros Ht HL HR m. unfold m, measure_t. cbn [m_t_sym m_f_sym m_width m_width_r m_t_0 m_t_1 m_dcd m_jitter_pp m_jitter_rms].
  set (sc := fun t => t * t_sym).
  assert (Nm : forall l : list R, l <> [] -> map sc l <> []) by (intros [|? ?] Hn; [contradiction|discriminate]).
  assert (BL : forall e, In e (map sc (h_left h)) -> - (t_sym / 2) <= e <= t_sym / 2).
  { intros e Hin. apply in_map_iff in Hin. destruct Hin as (t & <- & Hin). specialize (HL t Hin). unfold sc. nra. }
  split; [|split; [|split]].
  - intros NL NR. destruct (usamples_spec _ (Nm _ NL)) as (ul & El & Ml & Bl & Pl & _). destruct (usamples_spec _ (Nm _ NR)) as (ur & Er & Mr & Br & Pr & _).
    rewrite El, Er. cbn [lift2 lift1].
    assert (Hl : - (t_sym / 2) <= value ul <= t_sym / 2) by (apply Bl; exact BL).
    assert (Hr : t_sym / 2 < value ur <= 3 / 2 * t_sym).
    { assert (Hmin : exists lo, t_sym / 2 < lo /\ forall e, In e (map sc (h_right h)) -> lo <= e <= 3 / 2 * t_sym).
      { destruct (ptp_spec _ (Nm _ NR)) as (lo & hi & _ & Hlo & _ & Hb). exists lo. split.
        - apply in_map_iff in Hlo. destruct Hlo as (t & <- & Hin). specialize (HR t Hin). unfold sc. nra.
        - intros e Hin. specialize (Hb e Hin). apply in_map_iff in Hin. destruct Hin as (t & <- & Hin). specialize (HR t Hin). unfold sc in * . nra. }
      destruct Hmin as (lo & Hlo & Hb). specialize (Br lo (3 / 2 * t_sym) Hb). lra. }
    eexists _, _, _, _, (stddev ul), (stddev ur). split; [reflexivity|]. cbn [usub uadd udiv value stddev]. split; [lra|].
    split; [reflexivity|]. cbn [udiv value usub]. split; [field; lra|]. split; [exact Pl|]. split; [exact Pr|]. split; [reflexivity|].
    cbn [value]. split; [lra|]. split; [|split; [reflexivity|]].
    + rewrite sq_sqrt; [lra|]. pose proof (pow2_ge_0 (stddev ur)). pose proof (pow2_ge_0 (stddev ul)). lra.
    + cbn [value]. split; [reflexivity|]. apply Rmult_le_reg_r with (value ur - value ul); [lra|]. unfold Rdiv. rewrite Rmult_assoc, Rinv_l by lra. lra.
  - intros NR NF. destruct (usamples_spec _ (Nm _ NR)) as (ur & Er & Mr & _). destruct (usamples_spec _ (Nm _ NF)) as (uf & Ef & Mf & _).
    rewrite Er, Ef. cbn [lift2 lift1]. eexists _, _, _. split; [reflexivity|]. split; [reflexivity|]. cbn [usub uadd udiv value]. split; [lra|].
    split; [reflexivity|]. cbn [udiv usub uadd value]. split; [reflexivity|].
    assert (G : forall l (u : uvalue), l <> [] -> value u * INR (length (map sc l)) = rsum (map sc l) -> value u = mean l * t_sym).
    { intros l u Hn Q. pose proof (len_ne l Hn) as Hp. rewrite map_length in Q.
      assert (Es : rsum (map sc l) = t_sym * rsum l).
      { unfold sc. rewrite (map_ext _ (fun e => t_sym * e + 0)) by (intros; ring). rewrite rsum_map_affine. ring. }
      rewrite Es in Q. unfold mean. apply Rmult_eq_reg_r with (INR (length l)); [|lra]. rewrite Q. field. lra. }
    rewrite (G _ _ NR Mr), (G _ _ NF Mf). lra.
  - intros NL. destruct (usamples_spec _ (Nm _ NL)) as (ul & El & _ & _ & Pl & _). destruct (ptp_spec _ (Nm _ NL)) as (lo & hi & Ep & Ilo & Ihi & Hb).
    rewrite El, Ep. eexists _, _. split; [reflexivity|]. split; [reflexivity|]. pose proof (stddev_range _ _ _ _ El Hb).
    pose proof (BL _ Ilo). pose proof (BL _ Ihi). split; lra.
  - intros ->. cbn [map usamples ptp lift2 lift1]. destruct (usamples (map sc (h_right h))); repeat split; reflexivity.
Qed.
Print Assumptions C54_horizontal.

(** Optical measures: the modulation amplitude at the crossing, and the eye
    closure penalty, 10 log10 of its ratio to the inner eye opening. *)
Theorem C54_optical percentile noise_floor (v : @vertical R) : v_0_cross v <> [] -> v_1_cross v <> [] ->
  let m := measure_y percentile noise_floor v in
  exists oma, m_oma_cross m = Some oma /\ value oma = mean (v_1_cross v) - mean (v_0_cross v) /\
  let inner := percentile (v_1 v) (5 / 100) - percentile (v_0 v) (9995 / 100) in
  (v_0 v <> [] -> v_1 v <> [] -> 0 < value oma -> 0 < inner ->
     exists vecp, m_vecp m = Some vecp /\ Rpower 10 (value vecp / 10) = value oma / inner) /\
  (v_0 v <> [] -> v_1 v <> [] -> 0 < inner -> value oma <= 0 -> m_vecp m = None).
Proof.
  intros N0 N1 m.
  destruct (usamples_spec _ N0) as (u0 & E0 & M0 & _). destruct (usamples_spec _ N1) as (u1 & E1 & M1 & _).
  assert (V0 : value u0 = mean (v_0_cross v)) by (unfold mean; rewrite <- M0; field; pose proof (len_ne _ N0); lra).
  assert (V1 : value u1 = mean (v_1_cross v)) by (unfold mean; rewrite <- M1; field; pose proof (len_ne _ N1); lra).
  unfold m, measure_y. cbn [m_oma_cross m_vecp]. rewrite E0, E1. cbn [lift2]. eexists. split; [reflexivity|]. cbn [usub value]. split; [rewrite V0, V1; reflexivity|].
  split; intros W0 W1; destruct (v_0 v) as [|a0 l0]; try congruence; destruct (v_1 v) as [|a1 l1]; try congruence; clear W0 W1.
  - intros P I. unfold ulog10. cbn [udiv usub value stddev].
    assert (Q : 0 < (value u1 - value u0) / (percentile (a1 :: l1) (5 / 100) - percentile (a0 :: l0) (9995 / 100))) by (apply Rdiv_lt_0_compat; assumption).
    assert (Rleb ((value u1 - value u0) / (percentile (a1 :: l1) (5 / 100) - percentile (a0 :: l0) (9995 / 100))) 0 = false) as ->.
    { apply Rleb_false. exact Q. }
    eexists. split; [reflexivity|]. cbn [umul value]. unfold Rpower. assert (0 < ln 10) by (rewrite <- ln_1; apply ln_increasing; lra).
    match goal with |- exp (?x / ln 10 * 10 / 10 * ln 10) = _ => replace (x / ln 10 * 10 / 10 * ln 10) with x by (field; lra) end. apply exp_ln. exact Q.
  - intros I P. unfold ulog10. cbn [udiv usub value stddev].
    assert (Rleb ((value u1 - value u0) / (percentile (a1 :: l1) (5 / 100) - percentile (a0 :: l0) (9995 / 100))) 0 = true) as ->; [|reflexivity].
    apply Rleb_true. unfold Rdiv. assert (0 < / (percentile (a1 :: l1) (5 / 100) - percentile (a0 :: l0) (9995 / 100))) by (apply Rinv_0_lt_compat; exact I). nra.
Qed.
Print Assumptions C54_optical.

(** Edge times: the mean time of the upper crossings less that of the lower
    ones, for falling edges the other way round, in seconds; the beginnings. *)
Theorem C54_edges (t_sym : R) (h : @horizontal R) :
  let m := measure_t t_sym h in
  let seconds l := mean l * t_sym in
  (h_rise_lower h <> [] -> h_rise_upper h <> [] -> exists u s, m_t_rise m = Some u /\ m_t_rise_start m = Some s /\
     value u = seconds (h_rise_upper h) - seconds (h_rise_lower h) /\ value s = seconds (h_rise_lower h)) /\
  (h_fall_lower h <> [] -> h_fall_upper h <> [] -> exists u s, m_t_fall m = Some u /\ m_t_fall_start m = Some s /\
     value u = seconds (h_fall_lower h) - seconds (h_fall_upper h) /\ value s = seconds (h_fall_upper h)) /\
  (h_rise_half h <> [] -> exists u, m_t_1_start m = Some u /\ value u = seconds (h_rise_half h)) /\
  (h_fall_half h <> [] -> exists u, m_t_0_start m = Some u /\ value u = seconds (h_fall_half h)) /\
  (h_left h <> [] -> exists u, m_t_cross m = Some u /\ value u = seconds (h_left h)) /\
  (h_rise_half h <> [] -> h_fall_half h <> [] -> exists t0 t1, m_t_0 m = Some t0 /\ m_t_1 m = Some t1 /\
     value t0 = seconds (h_rise_half h) - seconds (h_fall_half h) + t_sym /\ value t1 = seconds (h_fall_half h) - seconds (h_rise_half h) + t_sym) /\
  (forall dcd sym, m_dcd m = Some dcd -> m_t_sym m = Some sym -> value sym <> 0 -> exists r, m_dcd_r m = Some r /\ value r * value sym = value dcd).
Proof.
  intros m seconds.
  assert (G : forall l, l <> [] -> exists u, usamples (map (fun t => t * t_sym) l) = Some u /\ value u = seconds l).
  { intros l Hn. assert (Nm : map (fun t => t * t_sym) l <> []) by (destruct l; [contradiction|discriminate]).
    destruct (usamples_spec _ Nm) as (u & E & Q & _). exists u. split; [exact E|]. rewrite map_length in Q.
    assert (Es : rsum (map (fun t => t * t_sym) l) = t_sym * rsum l).
    { rewrite (map_ext _ (fun e => t_sym * e + 0)) by (intros; ring). rewrite rsum_map_affine. ring. }
    rewrite Es in Q. unfold seconds, mean. pose proof (len_ne l Hn) as Hp. apply Rmult_eq_reg_r with (INR (length l)); [|lra]. rewrite Q. field. lra. }
  unfold m, measure_t. cbn [m_t_rise m_t_rise_start m_t_fall m_t_fall_start m_t_1_start m_t_0_start m_t_cross m_t_0 m_t_1 m_dcd m_t_sym m_dcd_r].
  repeat match goal with |- _ /\ _ => split end.
  - intros N1 N2. destruct (G _ N1) as (u1 & -> & V1). destruct (G _ N2) as (u2 & -> & V2). cbn [lift2]. eexists _, _. split; [reflexivity|]. split; [reflexivity|]. cbn [usub value]. lra.
  - intros N1 N2. destruct (G _ N1) as (u1 & -> & V1). destruct (G _ N2) as (u2 & -> & V2). cbn [lift2]. eexists _, _. split; [reflexivity|]. split; [reflexivity|]. cbn [usub value]. lra.
  - intros N1. apply G, N1.
  - intros N1. apply G, N1.
  - intros N1. apply G, N1.
  - intros N1 N2. destruct (G _ N1) as (u1 & -> & V1). destruct (G _ N2) as (u2 & -> & V2). cbn [lift2 lift1]. eexists _, _. split; [reflexivity|]. split; [reflexivity|]. cbn [usub uadd value]. lra.
  - intros dcd sym ED ES NZ. rewrite ED, ES. cbn [lift2]. eexists. split; [reflexivity|]. cbn [udiv value]. field. exact NZ.
Qed.
Print Assumptions C54_edges.

Lemma bind_ret {X} (r : result X) : match r with Ok x => Ok x | Err e => Err e end = r.
Proof. destruct r; reflexivity. Qed.
(** The samples of several waveforms are those of each, one after the other;
    the edge directions stay apart. *)
Theorem C54_all_waveforms {A} `{Num A} trunc (t_delta t_sym y_half level_width cross_width : A) waves v dirs :
  measure_vertical trunc t_delta t_sym y_half level_width cross_width waves = Ok (v, dirs) ->
  exists outs, Forall2 (fun w o => sample_vertical trunc (fst w) (snd w) t_delta t_sym y_half level_width cross_width = Ok o) waves outs /\
    v_0 v = flat_map v_0 outs /\ v_1 v = flat_map v_1 outs /\ v_cross v = flat_map v_cross outs /\
    v_0_cross v = flat_map v_0_cross outs /\ v_1_cross v = flat_map v_1_cross outs /\ v_avg v = flat_map v_avg outs /\
    (forall q, v_transitions v q = zsum (map (fun o => v_transitions o q) outs)) /\ dirs = map v_edge_dir outs.
Proof.
  revert v dirs. induction waves as [|w waves IH] using rev_ind; intros v dirs E.
  - injection E as <- <-. exists []. repeat split. constructor.
  - unfold measure_vertical in E. rewrite foldM_app in E. apply bind_ok in E. destruct E as ((v1 & d1) & E1 & E2).
    apply (IH v1 d1) in E1. destruct E1 as (outs & F & H1 & H2 & H3 & H4 & H5 & H6 & H7 & H8). cbn [foldM fst snd] in E2. rewrite bind_ret in E2. unbind E2. injection E2 as <- <-.
    match goal with X : sample_vertical _ _ _ _ _ _ _ _ = Ok ?o |- _ => exists (outs ++ [o]) end.
    split; [apply Forall2_app; [exact F|constructor; [assumption|constructor]]|].
    cbn [merge v_0 v_1 v_cross v_0_cross v_1_cross v_avg v_transitions]. rewrite H1, H2, H3, H4, H5, H6, H8, !flat_map_app, map_app. cbn [flat_map map]. rewrite !app_nil_r.
    repeat split; try reflexivity. intro q. rewrite H7, map_app. unfold zsum. rewrite fold_right_app. cbn [map fold_right]. clear.
    induction outs as [|o outs IH]; cbn [map fold_right]; lia.
Qed.
Print Assumptions C54_all_waveforms.
Theorem C54_all_times {A} `{Num A} trunc (t_delta t_sym y_zero y_ua y_cross hist_height edge_lower edge_upper : A) waves h :
  measure_horizontal trunc t_delta t_sym y_zero y_ua y_cross hist_height edge_lower edge_upper waves = Ok h ->
  exists outs, Forall2 (fun w o => sample_horizontal trunc (fst (fst w)) (snd (fst w)) (snd w) t_delta t_sym y_zero y_ua y_cross hist_height edge_lower edge_upper = Ok o) waves outs /\
    h_rise_lower h = flat_map h_rise_lower outs /\ h_rise_upper h = flat_map h_rise_upper outs /\ h_rise_half h = flat_map h_rise_half outs /\
    h_fall_lower h = flat_map h_fall_lower outs /\ h_fall_upper h = flat_map h_fall_upper outs /\ h_fall_half h = flat_map h_fall_half outs /\
    h_left h = flat_map h_left outs /\ h_right h = flat_map h_right outs.
Proof.
  revert h. induction waves as [|[[y sy] di] waves IH] using rev_ind; intros h E.
  - injection E as <-. exists []. repeat split. constructor.
  - unfold measure_horizontal in E. rewrite foldM_app in E. apply bind_ok in E. destruct E as (h1 & E1 & E2).
    apply (IH h1) in E1. destruct E1 as (outs & F & H1 & H2 & H3 & H4 & H5 & H6 & H7 & H8). cbn [foldM] in E2. rewrite bind_ret in E2. unbind E2. injection E2 as <-.
    match goal with X : sample_horizontal _ _ _ _ _ _ _ _ _ _ _ _ = Ok ?o |- _ => exists (outs ++ [o]) end.
    split; [apply Forall2_app; [exact F|constructor; [assumption|constructor]]|].
    cbn [hmerge h_rise_lower h_rise_upper h_rise_half h_fall_lower h_fall_upper h_fall_half h_left h_right].
    rewrite H1, H2, H3, H4, H5, H6, H7, H8, !flat_map_app. cbn [flat_map]. rewrite !app_nil_r. repeat split; reflexivity.
Qed.
Print Assumptions C54_all_times.

(** Levels after measuring: with automatic levels the measured 0 and 1 are at 0
    and 1 amplitude and the threshold is half way; a manual level 1 is kept at 1. *)
Theorem C54_levels m0 amp y_zero y_half : 
  update_levels None None None m0 amp y_zero y_half = (m0, amp, m0 + amp / 2) /\
  (forall y1 y_th, let '(z, u, _) := update_levels None (Some y1) y_th m0 amp y_zero y_half in z = m0 /\ z + u = y1) /\
  (forall y0 y1 y_th, let '(z, u, _) := update_levels (Some y0) (Some y1) y_th m0 amp y0 y_half in z = y0 /\ z + u = y1) /\
  (forall y_0 y_1 y_th, let '(_, _, hf) := update_levels y_0 y_1 (Some y_th) m0 amp y_zero y_half in hf = y_half).
Proof.
  unfold update_levels. split; [|split; [|split]].
  - f_equal. lra.
  - intros. split; [reflexivity|lra].
  - intros. split; [reflexivity|lra].
  - intros. destruct y_0, y_1; reflexivity.
Qed.
Print Assumptions C54_levels.
(** A manual level 0 with an automatic level 1 moves the top of the eye: level 0
    set to 1 while 0 and 4 are measured, the top is at 5. *)
Example C54_manual_zero_refuted :
  let '(z, u, _) := update_levels (Some 1) None None 0 (4 - 0) 1 2 in z + u = 5.
Proof. cbn. lra. Qed.
(** Samples meeting the hypotheses of the theorems above. *)
Example C54_witness :
  let h := Horizontal [] [] [1/10] [] [] [-1/10] [0; 1/10] [1; 9/10] in
  let v := Vertical [0; 1/10] [1; 9/10] [1/2] [] [] [] (fun _ => 0%Z) [] in
  (forall t, In t (h_left h) -> -1/2 <= t <= 1/2) /\ (forall t, In t (h_right h) -> 1/2 < t <= 3/2) /\
  h_left h <> [] /\ h_right h <> [] /\ h_rise_half h <> [] /\ h_fall_half h <> [] /\ v_0 v <> [] /\ v_1 v <> [] /\ v_cross v <> [].
Proof. cbn. repeat split; try discriminate; intros; lra. Qed.
