(** C81: an inverted signal. *)
From Coq Require Import ZArith Reals Bool List Lia Lra.
Import ListNotations.
From Verif Require Import Base Num RBool LinesModel LinesSpec MaskProofs StatsModel EyeModel EyeSpec EyeProofs EyeRProofs EyeProps Pam2Model Pam2Spec Pam2Proofs Pam2Props.
Local Open Scope R_scope.

(** ** Edges *)
Lemma getz_opp (y : list R) i : getz (map Ropp y) i = match getz y i with Ok a => Ok (- a) | Err x => Err x end.
Proof.
  unfold getz, get. rewrite map_length. destruct (0 <=? i)%Z; [|destruct (0 <=? i + Z.of_nat (length y))%Z; [|reflexivity]]; rewrite nth_error_map; destruct (nth_error y _); reflexivity.
Qed.
Lemma get_opp (y : list R) i : get (map Ropp y) i = match get y i with Ok a => Ok (- a) | Err x => Err x end.
Proof. unfold get. rewrite nth_error_map. destruct (nth_error y i); reflexivity. Qed.
Lemma getz_in (y : list R) i a : getz y i = Ok a -> In a y.
Proof.
  unfold getz, get. destruct (0 <=? i)%Z; [|destruct (0 <=? i + Z.of_nat (length y))%Z; [|discriminate]]; destruct (nth_error y _) eqn:N; intro E; inversion E; subst; exact (nth_error_In _ _ N).
Qed.
Lemma ltb_opp (a b : R) : nlt (- a) (- b) = nlt b a.
Proof. cbn. unfold Rltb. destruct (Rlt_dec (- a) (- b)), (Rlt_dec b a); try reflexivity; exfalso; lra. Qed.
Lemma ltb_other (a b : R) : a <> b -> nlt a b = negb (nlt b a).
Proof. intro N. cbn. unfold Rltb. destruct (Rlt_dec a b), (Rlt_dec b a); try reflexivity; exfalso; lra. Qed.
Lemma loop_opp fuel (y : list R) n v fw : ~ In v y -> forall i, crossing_loop fuel (map Ropp y) i n (- v) fw = crossing_loop fuel y i n v fw.
Proof.
  intro NV. induction fuel as [|fuel IH]; intro i; [reflexivity|]. cbn [crossing_loop]. destruct ((0 <? i)%Z && (i <? n)%Z); [|reflexivity].
  rewrite !getz_opp. destruct (getz y i) as [a|] eqn:A; [|reflexivity]. cbn [bind]. destruct (getz y (i - 1)) as [b|] eqn:B; [|reflexivity]. cbn [bind].
  apply getz_in in A, B. rewrite !ltb_opp, (ltb_other a v), (ltb_other b v) by (intros ->; contradiction). rewrite IH. destruct (nlt v a), (nlt v b); reflexivity.
Qed.
Lemma crossing_opp (t y : list R) i v fw n : ~ In v y -> crossing t (map Ropp y) i (- v) fw n = crossing t y i v fw n.
Proof.
  intro NV. unfold crossing. rewrite map_length, loop_opp by exact NV. destruct (crossing_loop _ y i _ v fw) as [k|]; [|reflexivity]. cbn [bind]. destruct ((k <? 1)%Z || _); [reflexivity|].
  destruct (getz t (k - 1)) as [x1|]; [|reflexivity]. cbn [bind]. destruct (getz t k) as [x2|]; [|reflexivity]. cbn [bind].
  rewrite !getz_opp. destruct (getz y (k - 1)) as [y1|]; [|reflexivity]. cbn [bind]. destruct (getz y k) as [y2|]; [|reflexivity]. cbn [bind].
  unfold py_div. cbn [neq nsub ndiv nmul nadd nofZ NumR]. unfold Reqb. destruct (Req_EM_T (- y2 - - y1) _) as [P|P], (Req_EM_T (y2 - y1) _) as [Q|Q]; try reflexivity; try (exfalso; lra).
  cbn [bind]. do 3 f_equal. cbn. field. lra.
Qed.

Lemma edges_fold_opp (t y : list R) rise half fall : ~ In half y -> forall is s s', foldM (edges_step t y rise half fall 0) s is = Ok s' ->
  foldM (edges_step t (map Ropp y) (- fall) (- half) (- rise) 0) (negb (fst (fst s)), snd s, snd (fst s)) is = Ok (negb (fst (fst s')), snd s', snd (fst s')).
Proof.
  intro NV. induction is as [|i is IH]; intros s s' F; cbn [foldM] in F |- * ; [injection F as <-; reflexivity|]. apply bind_ok in F. destruct F as (s1 & E1 & F).
  enough (E2 : edges_step t (map Ropp y) (- fall) (- half) (- rise) 0 (negb (fst (fst s)), snd s, snd (fst s)) i = Ok (negb (fst (fst s1)), snd s1, snd (fst s1))) by (rewrite E2; cbn [bind]; apply IH; exact F). clear F IH.
  destruct s as [[lw r] f]. cbn [fst snd]. unfold edges_step in E1 |- * . rewrite get_opp. destruct (get y i) as [yi|] eqn:G; [|discriminate]. cbn [bind] in E1 |- * .
  destruct lw; cbn [negb]; rewrite ltb_opp, crossing_opp by exact NV.
  - destruct (nlt rise yi); [|injection E1 as <-; reflexivity]. apply bind_ok in E1. destruct E1 as (c & C & E1). rewrite C. injection E1 as <-. reflexivity.
  - destruct (nlt yi fall); [|injection E1 as <-; reflexivity]. apply bind_ok in E1. destruct E1 as (c & C & E1). rewrite C. injection E1 as <-. reflexivity.
Qed.

(** Inverting a record and its thresholds exchanges rising and falling edges and
    leaves their times alone, if the record starts outside the band between the
    thresholds and no sample is exactly at the middle one. *)
Theorem C81_edges (t y : list R) rise half fall y0 r f : sample y 0 y0 -> y0 < fall \/ rise < y0 -> fall <= rise -> ~ In half y ->
  edges t y rise half fall = Ok (r, f) -> edges t (map Ropp y) (- fall) (- half) (- rise) = Ok (f, r).
Proof.
  intros S0 OUT FR NV E. unfold edges in E |- * . rewrite get_opp. unfold sample in S0. unfold get in E |- * . rewrite S0 in E |- * . cbn [bind] in E |- * . apply bind_ok in E. destruct E as ([[lw r'] f'] & F & E). injection E as -> ->.
  pose proof (edges_fold_opp t y rise half fall NV _ _ _ F) as G. cbn [fst snd] in G. rewrite map_length, ltb_opp.
  replace (nlt rise y0) with (negb (nlt y0 fall)); [rewrite G; reflexivity|]. cbn. unfold Rltb. destruct (Rlt_dec y0 fall), (Rlt_dec rise y0); try reflexivity; exfalso; lra.
Qed.
Print Assumptions C81_edges.

(** ** Symbols *)
Definition upside_down (ps : list (R * R)) : list (R * R) := map (fun p => (fst p, - snd p)) ps.
Definition opposite (d : decision) : decision := (negb (prev d), negb (cur d), negb (next d)).
(** No mean that a decision is made by is exactly at the threshold. *)
Definition clear (width y_half : R) (ps : list (R * R)) : Prop := forall c, In c [-1/2; 1/2; 3/2] -> mean (values_in c width ps) <> y_half.

Lemma values_opp c width ps : values_in c width (upside_down ps) = map Ropp (values_in c width ps).
Proof. unfold values_in, upside_down. induction ps as [|p ps IH]; [reflexivity|]. cbn [map filter fst]. destruct (_ && _); [cbn [map snd]; f_equal|]; exact IH. Qed.
Lemma rsum_opp l : rsum (map Ropp l) = - rsum l.
Proof. induction l as [|x l IH]; unfold rsum in *  ; cbn [map fold_right]; [lra|]. rewrite IH. lra. Qed.
Lemma mean_opp l : mean (map Ropp l) = - mean l.
Proof. unfold mean. rewrite rsum_opp, map_length. unfold Rdiv. ring. Qed.
Lemma decides_opp c width h ps d d' : mean (values_in c width ps) <> h -> decides c width h ps d -> decides c width (- h) (upside_down ps) d' -> d' = negb d.
Proof.
  intros N (_ & D) (_ & D'). rewrite values_opp, mean_opp in D'. destruct d, d'; try reflexivity; exfalso.
  - pose proof (proj1 D eq_refl). pose proof (proj1 D' eq_refl). lra.
  - assert (~ h < mean (values_in c width ps)) by (intro Q; apply D in Q; discriminate). assert (~ - h < - mean (values_in c width ps)) by (intro Q; apply D' in Q; discriminate). lra.
Qed.
Lemma combine_opp (t y : list R) : combine t (map Ropp y) = upside_down (combine t y).
Proof. revert y. induction t as [|a t IH]; intros [|b y]; try reflexivity. cbn. f_equal. apply IH. Qed.
Lemma samples_opp t0 y w t s : samples_of t0 (map Ropp y) w t s = upside_down (samples_of t0 y w t s).
Proof. unfold samples_of, window_fb. cbn [fst snd]. rewrite <- combine_opp. f_equal. unfold pyslice. rewrite map_length. rewrite ?skipn_map, ?firstn_map. reflexivity. Qed.
Lemma opposite_decs {S} (P : S -> decision -> Prop) (P' : S -> decision -> Prop) syms decs decs' : (forall s d d', In s syms -> P s d -> P' s d' -> d' = opposite d) -> Forall2 P syms decs -> Forall2 P' syms decs' -> decs' = map opposite decs.
Proof.
  intros H F. revert decs'. induction F as [|s d syms decs X F IH]; intros decs' F'; inversion F' as [|? d' ? decs2 X' F2]; subst; [reflexivity|]. cbn [map]. f_equal; [apply (H s); [left; reflexivity|assumption..]|].
  apply IH; [intros; apply (H s0); [right|..]; assumption|exact F2].
Qed.
Lemma opposite_twice d : opposite (opposite d) = d.
Proof. destruct d as [[[|] [|]] [|]]; reflexivity. Qed.
Lemma count_opposite decs q : count_occ decision_dec (map opposite decs) (opposite q) = count_occ decision_dec decs q.
Proof.
  induction decs as [|d decs IH]; [reflexivity|]. cbn [map count_occ]. rewrite IH. destruct (decision_dec (opposite d) (opposite q)) as [E|E], (decision_dec d q) as [F|F]; try reflexivity; exfalso; [apply F; rewrite <- (opposite_twice d), E; apply opposite_twice|apply E; congruence].
Qed.

(** What is sampled of the inverted record: zeros and ones exchanged, values and
    directions of edges negated. *)
Record inverse (v v' : @vertical R) : Prop := Inverse {
  i_0 : v_0 v' = map Ropp (v_1 v); i_1 : v_1 v' = map Ropp (v_0 v); i_cross : v_cross v' = map Ropp (v_cross v);
  i_0_cross : v_0_cross v' = map Ropp (v_1_cross v); i_1_cross : v_1_cross v' = map Ropp (v_0_cross v); i_avg : v_avg v' = map Ropp (v_avg v);
  i_transitions : forall q, v_transitions v' (opposite q) = v_transitions v q }.
Lemma filed_opp (ps : R * Z -> list (R * R)) keep keep' c width syms decs : (forall d, keep' (opposite d) = keep d) ->
  flat_map (fun sd : R * Z * decision => if keep' (snd sd) : bool then values_in c width (upside_down (ps (fst sd))) else []) (combine syms (map opposite decs))
  = map Ropp (flat_map (fun sd : R * Z * decision => if keep (snd sd) : bool then values_in c width (ps (fst sd)) else []) (combine syms decs)).
Proof.
  intro K. revert decs. induction syms as [|s syms IH]; intros [|d decs]; try reflexivity. cbn [map combine flat_map fst snd]. rewrite map_app, IH, K. f_equal. destruct (keep d); [apply values_opp|reflexivity].
Qed.
Theorem C81_symbols (t_sym t_delta t_zero y_half level_width cross_width : R) (y : list R) edges syms w t0 :
  0 < t_sym -> 0 < t_delta -> let width := Rmax level_width (101 / 100 * t_delta / t_sym) in width < 1 ->
  step3_sample int_of_float float_mod t_sym t_delta t_zero (Z.of_nat (length y)) edges = Ok syms ->
  get_i_width int_of_float t_sym t_delta = Ok w -> window_axis w t_sym t_delta = Ok t0 ->
  (forall s, In s syms -> clear width y_half (samples_of t0 y w t_sym s)) ->
  exists v v', sample_vertical int_of_float y syms t_delta t_sym y_half level_width cross_width = Ok v
    /\ sample_vertical int_of_float (map Ropp y) syms t_delta t_sym (- y_half) level_width cross_width = Ok v'
    /\ v_edge_dir v' = map Z.opp (v_edge_dir v) /\ inverse v v'.
Proof.
  intros Hs Hd width Hw E Ew Et CL.
  destruct (C40_vertical t_sym t_delta t_zero y_half level_width cross_width y edges syms w t0 Hs Hd Hw E Ew Et) as (v & decs & E1 & F & H1 & H2 & _ & H3 & H4 & H5 & H6 & H7 & H8).
  destruct (C40_vertical t_sym t_delta t_zero (- y_half) level_width cross_width (map Ropp y) edges syms w t0 Hs Hd Hw ltac:(rewrite map_length; exact E) Ew Et) as (v' & decs' & E1' & F' & H1' & H2' & _ & H3' & H4' & H5' & H6' & H7' & H8').
  exists v, v'. split; [exact E1|]. split; [exact E1'|].
  assert (decs' = map opposite decs) as ->.
  { refine (opposite_decs _ _ syms decs decs' _ F F'). intros s d d' I (A & B & C) (A' & B' & C'). rewrite samples_opp in A', B', C'. specialize (CL s I).
    unfold opposite. rewrite <- (decides_opp _ _ _ _ _ _ (CL _ (or_introl eq_refl)) A A'), <- (decides_opp _ _ _ _ _ _ (CL _ (or_intror (or_introl eq_refl))) B B'), <- (decides_opp _ _ _ _ _ _ (CL _ (or_intror (or_intror (or_introl eq_refl)))) C C').
    destruct d' as [[? ?] ?]. reflexivity. }
  split; [rewrite H1', H1, !map_map; apply map_ext; intro d; destruct d as [[[|] [|]] ?]; reflexivity|].
  assert (SO : forall keep c wd (l : list (R * Z * decision)), flat_map (fun sd : R * Z * decision => if keep (snd sd) : bool then values_in c wd (samples_of t0 (map Ropp y) w t_sym (fst sd)) else []) l = flat_map (fun sd : R * Z * decision => if keep (snd sd) : bool then values_in c wd (upside_down (samples_of t0 y w t_sym (fst sd))) else []) l)
    by (intros; apply flat_map_ext; intro; rewrite samples_opp; reflexivity).
  constructor.
  - rewrite H3', H4. etransitivity; [apply (SO (fun d => negb (cur d)))|]. apply (filed_opp _ cur (fun d => negb (cur d))). intro d. destruct d as [[? [|]] ?]; reflexivity.
  - rewrite H4', H3. etransitivity; [apply (SO cur)|]. apply (filed_opp _ (fun d => negb (cur d)) cur). intro d. destruct d as [[? [|]] ?]; reflexivity.
  - rewrite H5', H5. etransitivity; [apply (SO (fun d => xorb (prev d) (cur d)))|]. apply (filed_opp _ (fun d => xorb (prev d) (cur d)) (fun d => xorb (prev d) (cur d))). intro d. destruct d as [[[|] [|]] ?]; reflexivity.
  - rewrite H6', H7. etransitivity; [apply (SO (fun d => negb (prev d) && negb (cur d)))|]. apply (filed_opp _ (fun d => prev d && cur d) (fun d => negb (prev d) && negb (cur d))). intro d. destruct d as [[[|] [|]] ?]; reflexivity.
  - rewrite H7', H6. etransitivity; [apply (SO (fun d => prev d && cur d))|]. apply (filed_opp _ (fun d => negb (prev d) && negb (cur d)) (fun d => prev d && cur d)). intro d. destruct d as [[[|] [|]] ?]; reflexivity.
  - rewrite H8', H8. clear. induction syms as [|s syms IH]; [reflexivity|]. cbn [flat_map]. rewrite map_app, IH, samples_opp, values_opp. reflexivity.
  - intro q. rewrite H2', H2, count_opposite. reflexivity.
Qed.
Print Assumptions C81_symbols.

(** ** Eye diagrams *)
From Verif Require Import EyeImageModel EyeRunModel EyeRunSpec EyeRunProofs EyeReportSpec EyeReportProps EyeDataSpec EyeDataProps LinesRational.
From Verif Require LinesProps EyeUnitsSpec.
From Coq Require Import QArith Qreals.
Local Open Scope R_scope.
(** The same records upside down. *)
Definition inverted_records (e e' : eye) : Prop :=
  waves (e_waveforms e') = map (fun w => (fst w, map Ropp (snd w))) (waves (e_waveforms e)) /\ e_t_delta e' = e_t_delta e.
Lemma sample_all_opp t td edges ws : sample_all t td edges (map (fun w => (fst w, map Ropp (snd w))) ws) = sample_all t td edges ws.
Proof.
  unfold sample_all. rewrite map_length. generalize (seq 0 (length ws)) as ks. induction ws as [|v ws IH]; intros [|k ks]; [reflexivity..|]. cbn [map combine mapM fst]. rewrite IH. reflexivity.
Qed.
Lemma verticals_opp t td th lw cw edges ws centers w t0 vs vs' : 0 < t -> 0 < td -> Rmax lw (101 / 100 * td / t) < 1 ->
  sample_all t td edges ws = Ok centers -> (forall w, In w ws -> length (fst w) = length (snd w)) -> get_i_width int_of_float t td = Ok w -> window_axis w t td = Ok t0 ->
  (forall yc s, In yc (combine (map snd ws) centers) -> In s (snd yc) -> clear (Rmax lw (101 / 100 * td / t)) th (samples_of t0 (fst yc) w t s)) ->
  mapM (fun x : list R * list (R * Z) => sample_vertical int_of_float (fst x) (snd x) td t th lw cw) (combine (map snd ws) centers) = Ok vs ->
  mapM (fun x : list R * list (R * Z) => sample_vertical int_of_float (fst x) (snd x) td t (- th) lw cw) (combine (map (map Ropp) (map snd ws)) centers) = Ok vs' ->
  Forall2 (fun v v' => v_edge_dir v' = map Z.opp (v_edge_dir v) /\ inverse v v') vs vs'.
Proof.
  intros T D WI SA L W T0. destruct (sample_all_inv _ _ _ _ _ SA) as (LE & F). clear SA. revert edges centers vs vs' LE F.
  induction ws as [|wv ws IH]; intros edges centers vs vs' LE F CL E E'; [cbn in E, E'; injection E as <-; injection E' as <-; constructor|]. destruct edges as [|eg edges]; [cbn in LE; lia|].
  cbn [combine] in F. inversion F as [|? c ? cs (tz & N & S3) F' X1 X2]; subst. cbn [fst snd] in N, S3. cbn [map combine mapM fst snd] in E, E', CL. rewrite (L wv (or_introl eq_refl)) in S3.
  apply bind_ok in E. destruct E as (v & E1 & E). apply bind_ok in E. destruct E as (vr & E2 & E). injection E as <-.
  apply bind_ok in E'. destruct E' as (v' & E1' & E'). apply bind_ok in E'. destruct E' as (vr' & E2' & E'). injection E' as <-.
  destruct (C81_symbols t td tz th lw cw (snd wv) eg c w t0 T D WI S3 W T0 (fun s I => CL (snd wv, c) s (or_introl eq_refl) I)) as (u & u' & U & U' & DI & IN).
  assert (u = v) as -> by congruence. assert (u' = v') as -> by congruence. constructor; [split; assumption|].
  apply (IH (fun w' I => L w' (or_intror I)) edges cs vr vr' ltac:(cbn in LE; lia) F' (fun yc s I => CL yc s (or_intror I)) E2 E2').
Qed.
Lemma inverse_merge v v' o o' : inverse v v' -> inverse o o' -> inverse (merge v o) (merge v' o').
Proof. intros [] []. constructor; cbn [merge v_0 v_1 v_cross v_0_cross v_1_cross v_avg v_transitions]; rewrite ?map_app; congruence. Qed.
Lemma inverse_fold vs vs' : Forall2 (fun v v' => v_edge_dir v' = map Z.opp (v_edge_dir v) /\ inverse v v') vs vs' -> forall a a', inverse a a' -> inverse (fold_left merge vs a) (fold_left merge vs' a').
Proof. induction 1 as [|v v' vs vs' (_ & H) F IH]; intros a a' I; [exact I|]. cbn [fold_left]. apply IH, inverse_merge; assumption. Qed.
Lemma nrzl_opposite dirs : Forall (fun z => z = 0 \/ z = 1 \/ z = -1)%Z dirs -> forall s, nrzl (1 - s) (map Z.opp dirs) = map (fun b => 1 - b)%Z (nrzl s dirs).
Proof.
  induction 1 as [|z dirs [-> | [-> | -> ]] F IH]; intro s; [reflexivity|..]; cbn -[Z.sub]; f_equal; try reflexivity; [apply IH| |]; [exact (IH 1%Z)|exact (IH 0%Z)].
Qed.
Lemma bits_opposite dirs : Forall (fun z => z = 0 \/ z = 1 \/ z = -1)%Z dirs -> In 1%Z (bits_of true dirs) -> bits_of false (map Z.opp dirs) = map (fun b => 1 - b)%Z (bits_of false dirs).
Proof.
  intros F I. unfold bits_of in I |- * . cbv zeta. 
  assert (H : match filter (fun b => negb (b =? 0)%Z) (map Z.opp dirs) with [] => 0%Z | b :: _ => if (b =? 1)%Z then 0%Z else 1%Z end = (1 - match filter (fun b => negb (b =? 0)%Z) dirs with [] => 0%Z | b :: _ => if (b =? 1)%Z then 0%Z else 1%Z end)%Z).
  { clear -F I. induction F as [|z dirs [-> | [-> | -> ]] F IH]; [destruct I| |reflexivity..]. destruct I as [I|I]; [discriminate|]. exact (IH I). }
  rewrite H. apply nrzl_opposite. exact F.
Qed.
Lemma dirs_range t td th lw cw edges ws centers w t0 vs : 0 < t -> 0 < td -> Rmax lw (101 / 100 * td / t) < 1 ->
  sample_all t td edges ws = Ok centers -> (forall w, In w ws -> length (fst w) = length (snd w)) -> get_i_width int_of_float t td = Ok w -> window_axis w t td = Ok t0 ->
  mapM (fun x : list R * list (R * Z) => sample_vertical int_of_float (fst x) (snd x) td t th lw cw) (combine (map snd ws) centers) = Ok vs ->
  Forall (fun v => Forall (fun z => z = 0 \/ z = 1 \/ z = -1)%Z (v_edge_dir v)) vs.
Proof.
  intros T D WI SA L W T0 E. destruct (verticals _ _ _ _ _ _ _ _ _ _ _ T D WI SA L W T0 E) as (pds & SP & _). clear -SP.
  induction SP as [|v pd vs pds S SP IH]; constructor; [|exact IH]. destruct S as (_ & DI & _). rewrite DI. apply Forall_forall. intros z I. apply in_map_iff in I. destruct I as (d & <- & _). destruct d as [[[|] [|]] ?]; cbn; auto.
Qed.
Lemma usamples_opp l : usamples (map Ropp l) = option_map (fun u => UV (- value u) (StatsModel.stddev u)) (usamples l).
Proof.
  destruct l as [|x l]; [reflexivity|]. unfold usamples. remember (x :: l) as k eqn:K. assert (NE : map Ropp k <> [] /\ k <> []) by (subst k; split; discriminate). destruct NE as (N1 & N2).
  assert (V : rsum (map Ropp k) / INR (length (map Ropp k)) = - (rsum k / INR (length k))) by (rewrite rsum_opp, map_length; unfold Rdiv; ring).
  destruct (map Ropp k) as [|a r] eqn:MK; [contradiction|]. destruct k as [|a0 r0]; [contradiction|]. cbv zeta. cbn [option_map value StatsModel.stddev]. f_equal. rewrite V. f_equal.
  rewrite <- MK. rewrite !map_map. f_equal. rewrite map_length. f_equal. f_equal. apply map_ext. intro. ring.
Qed.

Section Inverted.
Variable round6 : R -> R.
Variable fit : nat -> list R -> result (list (R * R * R)).
Variable aic : list (R * R * R) -> list R -> R.
Variable new_cdr : R -> cdr.
Variable percentile : list R -> R -> R.
Variable cast : R -> Z.
Variable fuel : nat.
Variable draw : drawing.
Let find_levels := find_levels round6 fit aic.
Let completed := completed round6 fit aic new_cdr percentile cast fuel draw.
Definition negated (u : uvalue) : uvalue := UV (- value u) (StatsModel.stddev u).

(** Two completed eye diagrams, one of the inverted records, with the same clock
    and opposite thresholds.  If no mean that a symbol is decided by is exactly at
    the threshold, then the inverted one has the opposite bits and transitions and
    the same changes; its levels are the negated other levels. *)
Theorem C81_data d d' e e' m m' e1 e1' edges t l l' : completed d e m e1 edges t -> completed d' e' m' e1' edges t -> inverted_records e e' ->
  c_skip_measures (e_config e) = false -> c_skip_measures (e_config e') = false -> width e t < 1 ->
  c_level_width (e_config e') = c_level_width (e_config e) -> c_cross_width (e_config e') = c_cross_width (e_config e) ->
  find_levels (e_config e) (all_samples (e_waveforms e)) d = Ok l -> find_levels (e_config e') (all_samples (e_waveforms e')) d' = Ok l' -> l_half l' = - l_half l ->
  exists syms, Forall2 (record_symbols t (e_t_delta e)) (combine (waves (e_waveforms e)) edges) syms
    /\ (forall s c, In s (concat syms) -> In c [-1/2; 1/2; 3/2] -> values_in c (width e t) (snd s) <> [])
    /\ ((forall s, In s (concat syms) -> clear (width e t) (l_half l) (snd s)) ->
          (forall q, transition_dist m' (opposite q) = transition_dist m q)
       /\ exists changes bits bits', bit_stream e1 true = Ok changes /\ bit_stream e1' true = Ok changes
            /\ bit_stream e1 false = Ok bits /\ bit_stream e1' false = Ok bits'
            /\ (Forall (In 1%Z) changes -> bits' = map (map (fun b => 1 - b)%Z) bits)
       /\ exists my my', in_y m = Some my /\ in_y m' = Some my'
            /\ m_y_0 my' = option_map negated (m_y_1 my) /\ m_y_1 my' = option_map negated (m_y_0 my) /\ m_y_cross my' = option_map negated (m_y_cross my)
            /\ m_y_avg my' = option_map negated (m_y_avg my) /\ option_map value (m_amp my') = option_map value (m_amp my)).
Proof.
  intros CO CO' (WV & TD) SK SK' WI LW CW FL FL' HALF.
  destruct (whole round6 fit aic new_cdr percentile cast fuel draw _ _ _ _ _ _ CO) as (l1 & centers & w & t0 & dirs & yz & ua & syms & T & FL1 & SA & W & T0 & ME & _ & CA & DI & _ & F & LS & PS & _).
  destruct (whole round6 fit aic new_cdr percentile cast fuel draw _ _ _ _ _ _ CO') as (l2 & centers' & w' & t0' & dirs' & yz' & ua' & syms' & _ & FL2 & SA' & W' & T0' & ME' & _ & CA' & DI' & _).
  assert (l1 = l) as -> by (unfold find_levels in FL; congruence). assert (l2 = l') as -> by (unfold find_levels in FL'; congruence).
  pose proof CO as (_ & _ & _ & _ & D). rewrite WV, TD, sample_all_opp in SA'. assert (centers' = centers) as -> by congruence.
  destruct (measured_inv _ _ _ _ _ _ _ _ _ _ _ _ SK ME) as (vs & ? & ? & ? & ? & ? & ? & ? & MV & ED & TR & IY & _).
  destruct (measured_inv _ _ _ _ _ _ _ _ _ _ _ _ SK' ME') as (vs' & ? & ? & ? & ? & ? & ? & ? & MV' & ED' & TR' & IY' & _).
  rewrite WV, TD, HALF, LW, CW in MV'. rewrite map_map in MV'. cbn [snd] in MV'. rewrite <- (map_map snd (map Ropp)) in MV'.
  pose proof (dirs_range _ _ _ _ _ _ _ _ _ _ _ T D WI SA (waves_length (e_waveforms e)) W T0 MV) as DR.
  exists syms. split; [exact F|]. split.
  { intros s c I C. destruct (verticals _ _ _ _ _ _ _ _ _ _ _ T D WI SA (waves_length (e_waveforms e)) W T0 MV) as (pds & SP & EP). rewrite <- PS in EP.
    assert (K : In (snd s) (concat (map (map fst) pds))) by (rewrite EP, <- concat_map; apply in_map; exact I). rewrite <- concat_map in K. apply in_map_iff in K. destruct K as (q & <- & K).
    destruct (fold_merge _ _ _ _ _ _ SP) as (G1 & _). rewrite Forall_forall in G1. destruct (G1 q K) as ((N1 & _) & (N2 & _) & (N3 & _)). destruct C as [<-|[<-|[<-|[]]]]; assumption. }
  intro CL.
  assert (CL' : forall yc s, In yc (combine (map snd (waves (e_waveforms e))) centers) -> In s (snd yc) -> clear (width e t) (l_half l) (samples_of t0 (fst yc) w t s)).
  { intros yc s I J. assert (K : In (samples_of t0 (fst yc) w t s) (concat (map (map snd) syms))).
    { rewrite PS. apply in_concat. eexists. split; [apply in_map_iff; exists yc; split; [reflexivity|exact I]|apply in_map; exact J]. }
    rewrite <- concat_map in K. apply in_map_iff in K. destruct K as (q & <- & K). apply CL. exact K. }
  pose proof (verticals_opp _ _ _ _ _ _ _ _ _ _ _ _ T D WI SA (waves_length (e_waveforms e)) W T0 CL' MV MV') as FV.
  pose proof (inverse_fold _ _ FV no_vertical no_vertical ltac:(constructor; reflexivity)) as [I0 I1 IC I0C I1C IA IT].
  split; [intro q; rewrite TR', TR; apply IT|].
  exists (map (bits_of true) (map (fun v => v_edge_dir v) vs)), (map (bits_of false) (map (fun v => v_edge_dir v) vs)), (map (bits_of false) (map (fun v => v_edge_dir v) vs')).
  split; [unfold bit_stream; rewrite CA, DI, ED; reflexivity|]. split; [|split; [unfold bit_stream; rewrite CA, DI, ED; reflexivity|split; [unfold bit_stream; rewrite CA', DI', ED'; reflexivity|split]]].
  - unfold bit_stream. rewrite CA', DI', ED'. unfold get_bit_stream. cbn [negb]. f_equal. clear -FV. induction FV as [|v v' vs vs' (E & _) FV IH]; [reflexivity|]. cbn [map]. f_equal; [|exact IH]. rewrite E. unfold bits_of. rewrite map_map. apply map_ext. intro z. apply Z.abs_opp.
  - intro CH. clear -FV CH DR. induction FV as [|v v' vs vs' (E & _) FV IH]; [reflexivity|]. cbn [map] in CH |- * . inversion CH as [|? ? C1 C2]; subst. inversion DR as [|? ? R1 R2]; subst. f_equal; [|apply IH; assumption]. rewrite E. apply bits_opposite; assumption.
  - eexists. eexists. split; [exact IY|]. split; [exact IY'|]. unfold measure_y. cbn [m_y_0 m_y_1 m_y_cross m_y_avg m_amp]. rewrite I0, I1, IC, IA, !usamples_opp. repeat (split; [reflexivity|]).
    destruct (usamples (v_0 (fold_left merge vs no_vertical))), (usamples (v_1 (fold_left merge vs no_vertical))); try reflexivity. cbn. f_equal. ring.
Qed.

(** In particular for records of sent signals (see C67) with the threshold
    between the values of the bits. *)
Theorem C81_open d d' e e' m m' e1 e1' edges t l l' k period near jitter sent : completed d e m e1 edges t -> completed d' e' m' e1' edges t -> inverted_records e e' ->
  c_skip_measures (e_config e) = false -> c_skip_measures (e_config e') = false -> width e t < 1 ->
  c_level_width (e_config e') = c_level_width (e_config e) -> c_cross_width (e_config e') = c_cross_width (e_config e) ->
  find_levels (e_config e) (all_samples (e_waveforms e)) d = Ok l -> find_levels (e_config e') (all_samples (e_waveforms e')) d' = Ok l' -> l_half l' = - l_half l ->
  low_to k < l_half l < high_from k -> jitter + e_t_delta e / 2 + Rabs (t - period) + width e t * t / 2 <= near ->
  Forall2 (record_of k period near jitter (e_t_delta e)) (combine (waves (e_waveforms e)) edges) sent ->
  (forall q, transition_dist m' (opposite q) = transition_dist m q)
  /\ exists changes bits bits', bit_stream e1 true = Ok changes /\ bit_stream e1' true = Ok changes /\ bit_stream e1 false = Ok bits /\ bit_stream e1' false = Ok bits'
       /\ (Forall (In 1%Z) changes -> bits' = map (map (fun b => 1 - b)%Z) bits).
Proof.
  intros CO CO' IR SK SK' WI LW CW FL FL' HALF BD NEAR RO. pose proof CO as (_ & _ & PP & SP & TD). pose proof (period_pos edges t PP SP) as T.
  destruct (C81_data d d' e e' m m' e1 e1' edges t l l' CO CO' IR SK SK' WI LW CW FL FL' HALF) as (syms & RS & NE & GO).
  destruct GO as (TR & changes & bits & bits' & B1 & B2 & B3 & B4 & B5 & _).
  - intros s I c C MH. specialize (NE s c I C). apply in_concat in I. destruct I as (ss & IS & I).
    revert RS RO. generalize (combine (waves (e_waveforms e)) edges) as records. intros records RS. revert sent. induction RS as [|r ss0 records syms0 (first & F0 & (keep & U & _) & SE) RS IH]; [destruct IS|]. intros sent RO. inversion RO as [|? sg ? sent' (CA & CL) RO' X1 X2]; subst.
    destruct IS as [-> |IS]; [|exact (IH IS sent' RO')]. clear IH RS RO RO'. specialize (CA first F0). rewrite Forall_forall in SE. specialize (SE s I).
    assert (IE : In (fst s) (snd r)) by (apply (in_map fst) in I; rewrite U in I; apply filter_In in I; apply I). apply In_nth_error in IE. destruct IE as (i & IE). specialize (CL i (fst s) IE).
    assert (exists z, (z = -1 \/ z = 0 \/ z = 1)%Z /\ c = 1 / 2 + IZR z) as (z & Z1 & ->).
    { destruct C as [<-|[<-|[<-|[]]]]; [exists (-1)%Z|exists 0%Z|exists 1%Z]; (split; [lia|lra]). }
    pose proof (seen_shows k t period near jitter (e_t_delta e) first (width e t) T NEAR (snd (fst r)) sg (fst s) (Z.of_nat i) (snd s) z CA CL SE Z1 (width e t) (Rle_refl _)) as SH.
    unfold shows in SH. destruct (snd sg (Z.of_nat i + z)%Z); pose proof (mean_band _ _ _ NE SH); lra.
  - split; [exact TR|]. exists changes, bits, bits'. repeat (split; [assumption|]). exact B5.
Qed.
End Inverted.
Print Assumptions C81_data.
Print Assumptions C81_open.

(** Configured levels, exchanged and negated, give the opposite thresholds. *)
Theorem C81_levels round6 fit aic c c' y y' low high : c_y_0 c = Some low -> c_y_1 c = Some high -> c_y_0 c' = Some (- high) -> c_y_1 c' = Some (- low) ->
  c_y_th c' = option_map Ropp (c_y_th c) -> c_hysteresis c' = c_hysteresis c -> c_hysteresis_ua c' = c_hysteresis_ua c ->
  exists l l', find_levels round6 fit aic c y false = Ok l /\ find_levels round6 fit aic c' y' false = Ok l'
    /\ l_half l' = - l_half l /\ l_rising l' = - l_falling l /\ l_falling l' = - l_rising l /\ l_ua l' = l_ua l /\ l_zero l' = - (l_zero l + l_ua l).
Proof.
  intros Y0 Y1 Y0' Y1' TH HY HU. unfold find_levels. rewrite Y0, Y1, Y0', Y1', TH, HY, HU. cbn [bind]. eexists. eexists. split; [reflexivity|]. split; [reflexivity|]. cbn [l_half l_rising l_falling l_ua l_zero value StatsModel.stddev usub uadd udiv].
  destruct (c_y_th c), (c_hysteresis c); cbn; repeat split; field.
Qed.
Print Assumptions C81_levels.

(** A record that starts within the band: one falling edge, but upside down there
    is a falling and a rising one. *)
Theorem C81_edges_refuted : let t := [0; 1; 2] in let y := [9 / 20; 1; 0] in
  ~ In (1 / 2) y /\ exists a b c, edges t y (6 / 10) (1 / 2) (4 / 10) = Ok ([], [Some a]) /\ edges t (map Ropp y) (- (4 / 10)) (- (1 / 2)) (- (6 / 10)) = Ok ([Some b], [Some c]).
Proof.
  intros t y. split; [cbn; lra|].
  assert (TQ : t = map Q2R [0; 1; 2]%Q) by (unfold t; cbn [map]; repeat (apply f_equal2; [unfold Q2R; cbn; lra|]); reflexivity).
  assert (YQ : y = map Q2R [9 # 20; 1; 0]%Q) by (unfold y; cbn [map]; repeat (apply f_equal2; [unfold Q2R; cbn; lra|]); reflexivity).
  assert (NQ : map Ropp y = map Q2R [- (9 # 20); - (1); 0]%Q) by (unfold y; cbn [map]; repeat (apply f_equal2; [unfold Q2R; cbn; lra|]); reflexivity).
  replace (- (4 / 10)) with (Q2R (- (4 # 10))) by (unfold Q2R; cbn; lra). replace (- (1 / 2)) with (Q2R (- (1 # 2))) by (unfold Q2R; cbn; lra). replace (- (6 / 10)) with (Q2R (- (6 # 10))) by (unfold Q2R; cbn; lra).
  replace (4 / 10) with (Q2R (4 # 10)) by (unfold Q2R; cbn; lra). replace (1 / 2) with (Q2R (1 # 2)) by (unfold Q2R; cbn; lra). replace (6 / 10) with (Q2R (6 # 10)) by (unfold Q2R; cbn; lra).
  rewrite NQ, YQ, TQ, !edges_Q2R. eexists. eexists. eexists. split; (match goal with |- context [rmap reals ?x] => let v := eval vm_compute in x in replace x with v by (vm_compute; reflexivity) end; reflexivity).
Qed.
Print Assumptions C81_edges_refuted.
Example C81_edges_met : exists y0 r f, sample [0; 1; 0] 0 y0 /\ (y0 < 4 / 10 \/ 6 / 10 < y0) /\ ~ In (1 / 2) [0; 1; 0] /\ edges [0; 1; 2] [0; 1; 0] (6 / 10) (1 / 2) (4 / 10) = Ok (r, f).
Proof.
  exists 0. destruct (LinesProps.C04_edges_total [0; 1; 2] [0; 1; 0] (6 / 10) (1 / 2) (4 / 10) eq_refl ltac:(discriminate)) as (r & f & E). exists r, f. split; [reflexivity|]. split; [lra|]. split; [cbn; lra|exact E].
Qed.

(** ** A concrete case: the records of C67_met upside down. *)
Definition opposite_signal (s : signal) : signal := (fst s, fun n => negb (snd s n)).
Definition opposite_bands (k : bands) : bands := Bands (- high_to k) (- high_from k) (- low_to k) (- low_from k).
Lemma record_opp k period near jitter td ts y edges s : record_of k period near jitter td (ts, y, edges) s -> record_of (opposite_bands k) period near jitter td (ts, map Ropp y, edges) (opposite_signal s).
Proof.
  intros (CA & CL). split; [|exact CL]. cbn [fst snd] in CA |- * . intros first F0 j n J N. specialize (CA first F0 j n). rewrite map_length in J. specialize (CA J N).
  replace (nth j (map Ropp y) 0) with (- nth j y 0) by (rewrite <- (map_nth Ropp), Ropp_0; reflexivity). unfold shows, opposite_signal, opposite_bands in *  . cbn [snd low_from low_to high_from high_to]. destruct (snd s n); cbn [negb]; lra.
Qed.
Definition down_config : config :=
  Config None (1 / 10) (Some 10000) RISING None 1 false (3 / 10) (3 / 10) (5 / 100) (2 / 10) (8 / 10) 0 true (Some (- 1)) (Some (- 0)) None.
Example C81_met round6 fit aic new_cdr percentile cast fuel draw : exists e m e1 e' m' e1',
  construct bits_wave None (Some (ListOf [(true, bits_clock)])) None 10 (Some (Some bits_config')) = Ok e
  /\ construct (EyeUnitsSpec.rescaled (-1) 0 bits_wave) None (Some (ListOf [(true, bits_clock)])) None 10 (Some (Some down_config)) = Ok e'
  /\ completed round6 fit aic new_cdr percentile cast fuel draw false e m e1 [bits_clock] 4 /\ completed round6 fit aic new_cdr percentile cast fuel draw false e' m' e1' [bits_clock] 4
  /\ inverted_records e e' /\ bit_stream e1 false = Ok [[1; 0; 1; 0]%Z] /\ bit_stream e1' false = Ok [[0; 1; 0; 1]%Z].
Proof.
  destruct (C67_met round6 fit aic new_cdr percentile cast fuel draw) as (e & m & e1 & C & RO & CO & BS).
  destruct (construct (EyeUnitsSpec.rescaled (-1) 0 bits_wave) None (Some (ListOf [(true, bits_clock)])) None 10 (Some (Some down_config))) as [e'|] eqn:C'; [|discriminate].
  assert (TD : e_t_delta e = 1). { injection C as <-. change ((INR 27 - INR 0) / INR 27 = 1). rewrite (INR_IZR_INZ 27), (INR_IZR_INZ 0). cbn [Z.of_nat Pos.of_succ_nat Pos.succ]. lra. }
  assert (TD' : e_t_delta e' = 1). { injection C' as <-. change ((INR 27 - INR 0) / INR 27 = 1). rewrite (INR_IZR_INZ 27), (INR_IZR_INZ 0). cbn [Z.of_nat Pos.of_succ_nat Pos.succ]. lra. }
  assert (WV : waves (e_waveforms e) = [(bits_t, bits_y)]) by (injection C as <-; reflexivity).
  assert (WV' : waves (e_waveforms e') = [(bits_t, map Ropp bits_y)]).
  { transitivity [(bits_t, map (fun v => -1 * v + 0) bits_y)]; [injection C' as <-; reflexivity|]. do 2 f_equal. apply map_ext. intro. ring. }
  assert (CF : e_config e = bits_config') by (injection C as <-; reflexivity). assert (CF' : e_config e' = down_config) by (injection C' as <-; reflexivity). assert (CE : e_clock_edges e' = Some [bits_clock]) by (injection C' as <-; reflexivity).
  assert (MK : e_mask e' = None) by (injection C' as <-; reflexivity). assert (MC : e_converted e' = None) by (injection C' as <-; reflexivity). assert (RS : e_resolution e' = 10%Z) by (injection C' as <-; reflexivity).
  pose proof CO as (_ & _ & PP & _).
  destruct (C81_levels round6 fit aic bits_config' down_config (all_samples (e_waveforms e)) (all_samples (e_waveforms e')) 0 1) as (l & l' & FL & FL' & HALF & _); [reflexivity..|].
  assert (LH : l_half l = 1 / 2) by (injection FL as <-; cbn; lra). rewrite LH in HALF.
  assert (RO' : Forall2 (record_of (opposite_bands (Bands 0 0 1 1)) 4 (3 / 2) 0 (e_t_delta e')) (combine (waves (e_waveforms e')) [bits_clock]) [opposite_signal bits_signal]).
  { rewrite WV', TD'. rewrite WV, TD in RO. inversion RO as [|? ? ? ? R1 R2]; subst. constructor; [apply record_opp; exact R1|constructor]. }
  assert (END : end_time 1 0 28 = 27) by (unfold end_time; rewrite INR_IZR_INZ; cbn [Z.of_nat Pos.of_succ_nat Pos.succ]; lra).
  assert (HS : forall (P : decision -> Prop) i b, nth_error bits_clock i = Some b -> 8 <= b <= 20 -> P (pattern (opposite_signal bits_signal) (Z.of_nat i)) -> has_symbol 4 (e_t_delta e') (combine (waves (e_waveforms e')) [bits_clock]) [opposite_signal bits_signal] P).
  { intros P i b NB B HP. rewrite WV', TD'. exists (bits_t, map Ropp bits_y, bits_clock), (opposite_signal bits_signal), 0, i, b. split; [left; reflexivity|]. split; [reflexivity|]. split; [exact NB|]. split; [|exact HP].
    cbn [fst snd]. change (length bits_t) with 28%nat. rewrite END. unfold well_inside. lra. }
  rewrite <- CF in FL. rewrite <- CF' in FL'.
  destruct (C67_calculated round6 fit aic new_cdr percentile cast fuel draw e' l' [bits_clock] 4 (opposite_bands (Bands 0 0 1 1)) 4 (3 / 2) 0 [opposite_signal bits_signal] FL') as (m' & e1' & CO' & WD');
    [unfold opposite_bands; cbn [low_to high_from low_from high_to]; rewrite HALF; lra|exact CE|exact bits_period|exact PP|rewrite TD'; lra|rewrite WV'; cbn; lia|rewrite WV'; intros w [<-|[]]; discriminate|left; split; [exact MK|exact MC]|rewrite RS; lia|rewrite CF'; reflexivity|
     rewrite CF'; reflexivity|rewrite CF'; cbn; lra|rewrite CF'; cbn; lra|rewrite CF', TD'; cbn; lra|rewrite CF', TD'; cbn; lra|rewrite CF'; cbn; lra|rewrite TD'; lra|rewrite CF', TD'; cbn [c_level_width down_config]; replace (4 - 4) with 0 by lra; rewrite Rabs_R0; lra|exact RO'| | | |].
  1: refine (HS _ 1%nat 12 eq_refl ltac:(lra) _); reflexivity.
  1: refine (HS _ 0%nat 8 eq_refl ltac:(lra) _); reflexivity.
  1: refine (HS _ 1%nat 12 eq_refl ltac:(lra) _); discriminate.
  assert (IR : inverted_records e e') by (split; [rewrite WV, WV'; reflexivity|congruence]).
  exists e, m, e1, e', m', e1'. split; [exact C|]. split; [reflexivity|]. split; [exact CO|]. split; [exact CO'|]. split; [exact IR|]. split; [exact BS|].
  assert (WD : width e 4 = 3 / 10) by (unfold width; rewrite CF, TD; cbn [c_level_width bits_config']; apply Rmax_left; lra).
  destruct (C81_open round6 fit aic new_cdr percentile cast fuel draw false false e e' m m' e1 e1' [bits_clock] 4 l l' (Bands 0 0 1 1) 4 (3 / 2) 0 [bits_signal] CO CO' IR) as (_ & changes & bits & bits' & B1 & _ & B3 & B4 & B5);
    [rewrite CF; reflexivity|rewrite CF'; reflexivity|rewrite WD; lra|rewrite CF, CF'; reflexivity|rewrite CF, CF'; reflexivity|exact FL|exact FL'|rewrite HALF, LH; reflexivity|cbn [low_to high_from]; rewrite LH; lra|rewrite WD, TD; replace (4 - 4) with 0 by lra; rewrite Rabs_R0; lra|exact RO|].
  rewrite B4. rewrite BS in B3. injection B3 as <-. rewrite B5; [reflexivity|].
  destruct (C67_data round6 fit aic new_cdr percentile cast fuel draw false e m e1 [bits_clock] 4 l (Bands 0 0 1 1) 4 (3 / 2) 0 [bits_signal] CO) as (parts & WP & _ & _ & BT & _);
    [rewrite CF; reflexivity|rewrite WD; lra|exact FL|cbn [low_to high_from]; rewrite LH; lra|rewrite TD; lra|rewrite WD, TD; replace (4 - 4) with 0 by lra; rewrite Rabs_R0; lra|exact RO|].
  assert (changes = map sent_changes (combine [bits_signal] parts)) as -> by congruence.
  rewrite WV, TD in WP. cbn [combine] in WP. inversion WP as [|? part ? parts' (LP & first & F0 & W) WP' X1 X2]; subst. inversion WP'; subst. cbn [fst snd] in LP, F0, W.
  assert (first = 0) as -> by (cbn in F0; congruence). change (length bits_t) with 28%nat in W. cbv zeta in W. rewrite END in W. constructor; [|constructor].
  apply in_map_iff. exists 1%Z. split; [reflexivity|]. unfold numbers. cbn [fst snd]. apply in_map_iff. exists 1%nat. split; [reflexivity|]. apply in_seq. destruct (proj1 (W 1%nat 12 eq_refl)); [unfold well_inside; lra|]. lia.
Qed.
