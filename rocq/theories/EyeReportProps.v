(** C58: what a completed eye diagram reports. *)
From Coq Require Import ZArith Reals Bool List Lia Lra.
Import ListNotations.
From Verif Require Import Base Num RBool DrawSpec LinesModel StatsModel MaskModel MaskProofs EyeModel EyeSpec EyeProofs EyeRProofs EyeProps UncertainProofs Pam2Model Pam2Spec Pam2Proofs Pam2Props MathModel GaussProofs EyeImageModel EyeRunModel EyeRunSpec EyeRunProofs EyeRunPeriod EyeReportSpec.
From Verif Require CdrModel.
Local Open Scope R_scope.

(** ** Symbols of one record *)
Lemma float_mod_range b td : 0 < td -> 0 <= float_mod b td < td.
Proof.
  intros D. unfold float_mod. destruct (base_Int_part (b / td)) as (A & B). assert (E : b = td * (b / td)) by (field; lra). nra.
Qed.
Lemma list_nth_eq {X} (l1 l2 : list X) : length l1 = length l2 -> (forall k, (k < length l1)%nat -> nth_error l1 k = nth_error l2 k) -> l1 = l2.
Proof.
  revert l2. induction l1 as [|x l1 IH]; intros [|y l2] L H; try discriminate; [reflexivity|]. pose proof (H 0%nat ltac:(cbn; lia)) as E. cbn in E. injection E as ->. f_equal. apply IH; [cbn in L; lia|]. intros k K. apply (H (S k)). cbn. lia.
Qed.
Lemma nth_error_both {X Y} (a : list X) (c : list Y) k x y : nth_error a k = Some x -> nth_error c k = Some y -> nth_error (combine a c) k = Some (x, y).
Proof. revert c k. induction a as [|x' a IH]; intros [|y' c] [|k] A B; try discriminate; cbn in A, B |- * ; [congruence|apply IH; assumption]. Qed.
Lemma window_view w t td tz t0 y (s : R * Z) : (2 <= w)%Z -> 0 < t -> window_axis w t td = Ok t0 -> (0 <= snd s - w /\ snd s + w < Z.of_nat (length y))%Z ->
  samples_of t0 y w t s = view t td tz (tz + IZR (snd s) * td - fst s) y (Z.to_nat (snd s - w)) (Z.to_nat (2 * w + 1)).
Proof.
  intros W T E F. destruct (window_axis_length _ _ _ _ E) as (H0 & HL). destruct (window_agree t0 y w t s H0 HL F) as (_ & L1 & L2 & NY).
  unfold samples_of, view. apply list_nth_eq; [rewrite combine_length, map_length, seq_length, L1, L2, HL; lia|]. intros k K. rewrite combine_length, L1, L2, Nat.min_id in K.
  rewrite nth_error_map, (nth_error_nth' _ 0%nat) by (rewrite seq_length; lia). rewrite seq_nth by lia. cbn [option_map].
  pose proof (NY k K) as NK. assert (KY : (Z.to_nat (snd s - w) + k < length y)%nat) by lia. rewrite (nth_error_nth' y 0 KY) in NK.
  unfold window_axis in E. destruct (Z.ltb_spec (w * 2 + 1) 0) as [Q|_]; [lia|]. injection E as E. 
  assert (NT : nth_error (fst (window_fb t0 y w t s)) k = Some (1 / 2 + (tz + INR (Z.to_nat (snd s - w) + k) * td - (tz + IZR (snd s) * td - fst s)) / t)).
  { unfold window_fb. cbn [fst]. rewrite nth_error_map, <- E. rewrite linspace_points by lia. rewrite nth_error_map, (nth_error_nth' _ 0%nat) by (rewrite seq_length; lia). rewrite seq_nth by lia. cbn [option_map].
    f_equal. cbn [nadd nsub nmul ndiv nofZ nhalf NumR]. assert (EW : INR (Z.to_nat (w * 2 + 1) - 1) = 2 * IZR w) by (rewrite INR_IZR_INZ, <- mult_IZR; f_equal; lia). rewrite EW.
    assert (WP : 0 < IZR w) by (apply IZR_lt; lia). change (0 + k)%nat with k. rewrite (plus_INR (Z.to_nat (snd s - w)) k), (INR_IZR_INZ (Z.to_nat (snd s - w))), Z2Nat.id, minus_IZR by lia. field. lra. }
  apply nth_error_both; assumption.
Qed.
Lemma step3_seen t td tz edges y c w t0 : 0 < t -> 0 < td -> step3_sample int_of_float float_mod t td tz (Z.of_nat (length y)) edges = Ok c ->
  get_i_width int_of_float t td = Ok w -> window_axis w t td = Ok t0 ->
  exists used, symbols_of t td tz (end_time td tz (length y)) edges used /\ Forall2 (fun b s => seen t td tz b y (samples_of t0 y w t s)) used c.
Proof.
  intros T D E W T0.
  destruct (i_width_R _ _ _ T D W) as (W2 & WU & WL). pose proof (step3_inside _ _ _ _ _ _ _ _ _ E W) as INS. destruct (step3_filter _ _ _ _ _ _ _ _ _ E W) as (idx & HI & EC). rewrite EC in INS |- * . clear E EC. set (n := length y) in *  .
  assert (ET : t / td * td = t) by (field; lra). 
  exists (filter (fun b => fits w (Z.of_nat n) (idx b)) edges). split.
  - exists (fun b => fits w (Z.of_nat n) (idx b)). split; [reflexivity|]. intros b I. specialize (HI b I). unfold int_of_float in HI. injection HI as HI.
    pose proof (float_mod_range b td D) as M. set (r := float_mod b td) in *  . change (((b -. tz -. r) /. td +. nhalf)%num) with ((b - tz - r) / td + / 2) in HI.
    assert (ED : (b - tz - r) / td * td = b - tz - r) by (field; lra). set (q := (b - tz - r) / td) in *  . set (p := t / td) in *  .
    unfold well_inside, within, end_time, fits. rewrite INR_IZR_INZ. split.
    + intros (A & B). assert (Q : p + 3 < q) by nra. assert (PP : 0 < p) by (apply Rdiv_lt_0_compat; assumption).
      destruct (truncR_pos (q + / 2)) as (U & _); [lra|]. rewrite HI in U. assert (HB : q <= IZR (Z.of_nat n) - 1 - p - 3) by nra.
      apply andb_true_iff. rewrite Z.leb_le, Z.ltb_lt. split; [apply le_IZR; rewrite minus_IZR; lra|apply lt_IZR; rewrite plus_IZR; lra].
    + intros F. apply andb_true_iff in F. rewrite Z.leb_le, Z.ltb_lt in F. destruct F as (F1 & F2).
      assert (QP : 0 <= q + / 2). { destruct (Rlt_le_dec (q + / 2) 0) as [N|N]; [|exact N]. apply truncR_neg in N. lia. }
      destruct (truncR_pos _ QP) as (U & _). rewrite HI in U. apply Z.lt_le_pred in F2. apply IZR_le in F1, F2. rewrite minus_IZR in F1. unfold Z.pred in F2. rewrite !plus_IZR in F2.
      assert (Q1 : p + 1 < q) by lra. assert (Q2 : q < IZR (Z.of_nat n) - 1 - p - 1) by lra. nra.
  - assert (G : forall b, In b (filter (fun b => fits w (Z.of_nat n) (idx b)) edges) -> seen t td tz b y (samples_of t0 y w t (neg (float_mod b td), idx b))).
    { intros b I. assert (IS := INS (neg (float_mod b td), idx b)). specialize (IS ltac:(apply in_map_iff; exists b; split; [reflexivity|exact I])). cbn [snd] in IS. apply filter_In in I. destruct I as (I & _).
      destruct (aligned td tz b (idx b) D ltac:(lia) (HI b I)) as (A1 & A2). pose proof (float_mod_range b td D) as M. assert (EN : neg (float_mod b td) = - float_mod b td) by (unfold neg; cbn; lra).
      rewrite EN. rewrite (window_view w t td tz t0 y (- float_mod b td, idx b) W2 T T0 IS). cbn [fst snd].
      exists (tz + IZR (idx b) * td - - float_mod b td), (Z.to_nat (idx b - w)), (Z.to_nat (2 * w + 1)).
      replace (tz + IZR (idx b) * td - - float_mod b td) with (tz + IZR (idx b) * td + float_mod b td) by ring. split; [exact A1|]. split; [exact A2|]. split; [fold n; lia|].
      rewrite plus_INR, !INR_IZR_INZ, !Z2Nat.id by lia. rewrite minus_IZR, plus_IZR, mult_IZR. set (p := t / td) in *  . split; [nra|]. split; [nra|reflexivity]. }
    clear -G. induction (filter _ edges) as [|b l IH]; [constructor|]. cbn [map]. constructor; [apply G; left; reflexivity|]. apply IH. intros b' I. apply G. right. exact I.
Qed.
Lemma sample_all_inv t td edges ws centers : sample_all t td edges ws = Ok centers -> (length ws <= length edges)%nat /\
  Forall2 (fun we c => exists tz, nth_error (fst (fst we)) 0 = Some tz /\ step3_sample int_of_float float_mod t td tz (Z.of_nat (length (fst (fst we)))) (snd we) = Ok c) (combine ws edges) centers.
Proof.
  unfold sample_all. assert (G : forall ws k centers, mapM (fun p : nat * (list R * list R) => let '(i, w) := p in
     bind (get (fst w) 0) (fun t_zero => bind (get edges i) (fun eg => step3_sample int_of_float float_mod t td t_zero (Z.of_nat (length (fst w))) eg))) (combine (seq k (length ws)) ws) = Ok centers ->
     (length ws <= length edges - k)%nat /\ Forall2 (fun we c => exists tz, nth_error (fst (fst we)) 0 = Some tz /\ step3_sample int_of_float float_mod t td tz (Z.of_nat (length (fst (fst we)))) (snd we) = Ok c) (combine ws (skipn k edges)) centers).
  { clear ws centers. induction ws as [|w ws IH]; intros k centers E.
    - injection E as <-. split; [cbn; lia|constructor].
    - cbn [length seq combine mapM] in E. apply bind_ok in E. destruct E as (c & E1 & E). apply bind_ok in E. destruct E as (cs & E2 & E). injection E as <-.
      apply bind_ok in E1. destruct E1 as (tz & E3 & E1). apply bind_ok in E1. destruct E1 as (eg & E4 & E1).
      unfold get in E3, E4. destruct (nth_error (fst w) 0) as [tz'|] eqn:N0; [|discriminate]. injection E3 as ->. destruct (nth_error edges k) as [eg'|] eqn:NK; [|discriminate]. injection E4 as ->.
      destruct (IH (S k) cs E2) as (L & F). assert (KL : (k < length edges)%nat) by (apply nth_error_Some; congruence). split; [cbn [length]; lia|].
      destruct (nth_error_split edges k NK) as (l1 & l2 & EQ & LE). rewrite EQ in F |- * . rewrite <- LE in F |- * . rewrite skipn_app, skipn_all, Nat.sub_diag. cbn [skipn app combine].
      replace (S (length l1)) with (length (l1 ++ [eg])) in F by (rewrite app_length; cbn; lia). replace (l1 ++ eg :: l2) with ((l1 ++ [eg]) ++ l2) in F by (rewrite <- app_assoc; reflexivity).
      rewrite skipn_app, skipn_all, Nat.sub_diag in F. cbn [skipn app] in F. constructor; [|exact F]. exists tz. split; [exact N0|exact E1]. }
  intros E. destruct (G ws 0%nat centers E) as (L & F). cbn [skipn] in F. split; [lia|exact F].
Qed.

(** ** Mask *)
Lemma margin_loop_inv (hitting : nat -> result bool) n : forall fuel i j, margin_loop fuel hitting n i = Ok j ->
  (i <= j)%nat /\ (forall k, (i <= k < j)%nat -> hitting k = Ok true) /\ ((j < n)%nat -> hitting j = Ok false) /\ ((i <= n)%nat -> (j <= n)%nat).
Proof.
  induction fuel as [|fuel IH]; intros i j E; [discriminate|]. cbn [margin_loop] in E. destruct (Nat.ltb_spec i n) as [L|L].
  - destruct (hitting i) as [[|]|x] eqn:H; cbn [bind] in E; [| |discriminate].
    + destruct (IH _ _ E) as (A & B & C & D). split; [lia|]. split; [|split; [exact C|intros _; apply D; lia]]. intros k K. destruct (Nat.eq_dec k i) as [->|N]; [exact H|apply B; lia].
    + injection E as <-. repeat split; try lia. intros _. exact H.
  - injection E as <-. repeat split; lia.
Qed.
Definition consistent (z : nat) (st : nat * nat * list nat * list (R * R)) : Prop := let '(_, im, offs, _) := st in offs <> [] <-> (z < im)%nat.
Lemma mask_step_inv t0 y w t paths n st s st' : mask_step t0 y w t paths n st s = Ok st' -> (0 < n)%nat -> (snd (fst (fst st)) <= n)%nat -> consistent (n / 2) st ->
  consistent (n / 2) st' /\ (snd (fst (fst st')) <= n)%nat /\ (length (snd (fst st')) <= S (length (snd (fst st))))%nat.
Proof.
  destruct st as [[[i im] offs] hs]. unfold mask_step. destruct (window_fb t0 y w t s) as [wt wy]. set (z := (n / 2)%nat). intros E N IN CO. cbn [fst snd consistent] in IN, CO.
  assert (ZN : (z < n)%nat) by (apply Nat.div_lt; lia). apply bind_ok in E. destruct E as (im' & L & E). destruct (margin_loop_inv _ _ _ _ _ L) as (A & B & C & D). specialize (D IN).
  destruct (Nat.ltb_spec im' z) as [Q|Q].
  - injection E as <-. cbn [fst snd consistent]. split; [|split; [exact D|lia]]. rewrite CO. lia.
  - apply bind_ok in E. destruct E as (m0 & G & E). apply bind_ok in E. destruct E as (h & HT & E). pose proof (is_hitting_touches _ _ _ _ HT) as IH.
    assert (HZ : forall b, bind (get paths z) (fun m => is_hitting_np wt wy m) = Ok b -> b = match h with [] => false | _ => true end).
    { intros b. rewrite G. cbn [bind]. unfold is_hitting_np. rewrite IH. congruence. }
    destruct h as [|h0 h]; injection E as <-; cbn [fst snd consistent].
    + split; [|split; [exact D|lia]]. rewrite CO. split; [lia|]. intros Z. destruct (le_lt_dec im z) as [J|J]; [|exact J]. specialize (B z ltac:(lia)). apply HZ in B. discriminate.
    + split; [|split; [exact D|rewrite app_length; cbn; lia]]. split; [|intros _ X; apply app_eq_nil in X; destruct X; discriminate]. intros _.
      destruct (Nat.eq_dec im' z) as [->|NE]; [|lia]. specialize (C ZN). apply HZ in C. discriminate.
Qed.
Lemma sample_mask_inv trunc y symbols (td t yz ua : R) paths o : sample_mask trunc y symbols td t yz ua paths margins = Ok o ->
  (length (offenders o) <= length symbols)%nat /\ exists k, (k <= 2000)%nat /\ margin o = IZR (1000 - Z.of_nat k) / 1000 /\ (offenders o <> [] <-> (1000 < k)%nat).
Proof.
  unfold sample_mask. intros E. apply bind_ok in E. destruct E as (w & _ & E). apply bind_ok in E. destruct E as (t0 & _ & E). apply bind_ok in E. destruct E as (st & FO & E).
  pose proof margins_length as ML. pose proof margins_nth as MN. unfold getz, get in E. rewrite ML in FO, E. assert (N0 : (0 < 2001)%nat) by (apply Nat.ltb_lt; reflexivity). assert (HZ : (2001 / 2 = 1000)%nat) by reflexivity.
  assert (G : forall syms st st', foldM (mask_step t0 (normalise_y y yz ua) w t paths 2001) st syms = Ok st' -> (snd (fst (fst st)) <= 2001)%nat -> consistent (2001 / 2) st ->
    consistent (2001 / 2) st' /\ (snd (fst (fst st')) <= 2001)%nat /\ (length (snd (fst st')) <= length (snd (fst st)) + length syms)%nat).
  { clear -N0. induction syms as [|s syms IH]; intros st st' E L C; [injection E as <-; repeat split; try assumption; cbn [length]; lia|]. cbn [foldM] in E. apply bind_ok in E. destruct E as (st1 & E1 & E).
    destruct (mask_step_inv _ _ _ _ _ _ _ _ _ E1 N0 L C) as (C1 & L1 & K1). destruct (IH _ _ E L1 C1) as (C2 & L2 & K2). repeat split; try assumption. cbn [length]. lia. }
  specialize (G symbols _ st FO). cbn [fst snd consistent length] in G. destruct G as (C & L & K); [lia|split; [intros X; congruence|lia]|].
  destruct st as [[[i im] offs] hs]. cbn [fst snd] in *  . unfold consistent in C. rewrite HZ in C. clear FO N0 HZ.
  destruct (Z.leb_spec 0 (Z.min (Z.of_nat 2001 - 1) (Z.of_nat im))) as [Q|Q]; [|lia]. replace (Z.to_nat (Z.min (Z.of_nat 2001 - 1) (Z.of_nat im))) with (Nat.min 2000 im) in E by lia.
  rewrite MN in E by lia. cbn [bind] in E. injection E as <-. cbn [offenders margin]. split; [lia|]. exists (Nat.min 2000 im). split; [lia|]. split; [reflexivity|]. rewrite C. lia.
Qed.
Lemma eye_sample_mask_inv trunc mk (td t yz ua : R) ws offs hs mg cnt : eye_sample_mask trunc (Some mk) td t yz ua ws = Ok (offs, hs, mg, cnt) ->
  (cnt <= length (concat (map snd ws)))%nat /\ exists k, (k <= 2000)%nat /\ mg = IZR (1000 - Z.of_nat k) / 1000 /\ (mg < 0 <-> (0 < cnt)%nat).
Proof.
  unfold eye_sample_mask. intros E. apply bind_ok in E. destruct E as (mc & _ & E). apply bind_ok in E. destruct E as (paths & _ & E).
  assert (G : forall ws st st', foldM (fun st (w : list R * list (R * Z)) => let '(offs, hs, mg, cnt) := st in
        bind (sample_mask trunc (fst w) (snd w) td t yz ua paths margins) (fun o => Ok (offs ++ [offenders o], hs ++ mask_hits o, if (margin o <. mg)%num then margin o else mg, (cnt + length (offenders o))%nat))) st ws = Ok st' ->
     (exists k, (k <= 2000)%nat /\ snd (fst st) = IZR (1000 - Z.of_nat k) / 1000 /\ ((1000 < k)%nat <-> (0 < snd st)%nat)) ->
     (snd st' <= snd st + length (concat (map snd ws)))%nat /\ exists k, (k <= 2000)%nat /\ snd (fst st') = IZR (1000 - Z.of_nat k) / 1000 /\ ((1000 < k)%nat <-> (0 < snd st')%nat)).
  { clear. induction ws as [|w ws IH]; intros [[[offs hs] mg] cnt] st' E I.
    - injection E as <-. split; [cbn; lia|exact I].
    - cbn [foldM] in E. apply bind_ok in E. destruct E as (st1 & E1 & E). apply bind_ok in E1. destruct E1 as (o & SM & E1). injection E1 as <-.
      destruct (sample_mask_inv _ _ _ _ _ _ _ _ _ SM) as (LO & k1 & K1 & M1 & O1). destruct I as (k & K & M & CK). cbn [fst snd] in M, CK.
      destruct (IH _ _ E) as (L & I).
      + cbn [fst snd]. assert (ON : offenders o <> [] <-> (0 < length (offenders o))%nat) by (destruct (offenders o); cbn; split; intros; try lia; try congruence). rewrite ON in O1.
        change (margin o <. mg)%num with (Rltb (margin o) mg). destruct (Rltb (margin o) mg) eqn:LT; [apply Rltb_true in LT|apply Rltb_false in LT]; rewrite M, M1 in LT.
        * exists k1. split; [exact K1|]. split; [exact M1|]. assert (k < k1)%nat; [|lia]. assert (IZR (1000 - Z.of_nat k1) < IZR (1000 - Z.of_nat k)) as Q by lra. apply lt_IZR in Q. lia.
        * exists k. split; [exact K|]. split; [exact M|]. assert (k1 <= k)%nat; [|lia]. assert (IZR (1000 - Z.of_nat k) <= IZR (1000 - Z.of_nat k1)) as Q by lra. apply le_IZR in Q. lia.
      + cbn [snd] in L. split; [|exact I]. cbn [map concat snd]. rewrite app_length. cbn [snd]. unfold symbol in *  . lia. }
  destruct (G ws _ _ E) as (L & k & K & M & CK).
  - cbn [fst snd]. exists 0%nat. split; [lia|]. split; [change (1 = IZR 1000 / 1000); lra|]. lia.
  - cbn [fst snd] in *  . split; [exact L|]. exists k. split; [exact K|]. split; [exact M|]. rewrite <- CK, M. split.
    + intros Q. assert (IZR (1000 - Z.of_nat k) < IZR 0) as X by lra. apply lt_IZR in X. lia.
    + intros Q. assert (1000 - Z.of_nat k < 0)%Z as X by lia. apply IZR_lt in X. lra.
Qed.

Lemma same_length {X Y} (P : X -> Y -> Prop) a b : Forall2 P a b -> length a = length b.
Proof. induction 1; cbn; congruence. Qed.
Lemma map_fst_combine {X Y} (a : list X) (b : list Y) : length a = length b -> map fst (combine a b) = a.
Proof. revert b. induction a as [|x a IH]; intros [|y b] L; try discriminate; [reflexivity|]. cbn. f_equal. apply IH. cbn in L. lia. Qed.
Lemma map_snd_combine {X Y} (a : list X) (b : list Y) : length a = length b -> map snd (combine a b) = b.
Proof. revert b. induction a as [|x a IH]; intros [|y b] L; try discriminate; [reflexivity|]. cbn. f_equal. apply IH. cbn in L. lia. Qed.
Section Report.
Variable round6 : R -> R.
Variable fit : nat -> list R -> result (list (R * R * R)).
Variable aic : list (R * R * R) -> list R -> R.
Variable new_cdr : R -> cdr.
Variable percentile : list R -> R -> R.
Variable cast : R -> Z.
Variable fuel : nat.
Variable draw : drawing.
Let calculate := calculate round6 fit aic new_cdr percentile cast fuel draw.
Let find_levels := find_levels round6 fit aic.

(** A finished calculation: its clock edges are in order, the symbol time is
    theirs, the sample period positive. *)
Definition completed (d : bool) (e : eye) (m : measures) (e1 : eye) (edges : list (list R)) (t : R) : Prop :=
  calculate d e = (Ok m, e1) /\ get_clock_edges e1 = Ok (Some edges) /\ (forall p, is_period edges p -> 0 < p)
  /\ symbol_period edges = Ok (Some t) /\ 0 < e_t_delta e.
Lemma period_pos edges t : (forall p, is_period edges p -> 0 < p) -> symbol_period edges = Ok (Some t) -> 0 < t.
Proof.
  intros P E. assert (NE : edges <> []) by (intros ->; discriminate). destruct (list_eq_dec Req_EM_T (periods edges) []) as [N|N].
  - unfold symbol_period in E. destruct edges as [|x l]; [congruence|]. fold (periods (x :: l)) in E. rewrite N in E. discriminate.
  - destruct (symbol_period_spec edges NE N (fun q Q => P q (proj1 (periods_In edges q) Q))) as (_ & E' & TP). rewrite E' in E. injection E as <-. exact TP.
Qed.
Lemma report d e m e1 edges t : completed d e m e1 edges t -> exists l centers w t0 dirs y_zero y_ua,
  0 < t /\ find_levels (e_config e) (all_samples (e_waveforms e)) d = Ok l
  /\ sample_all t (e_t_delta e) edges (waves (e_waveforms e)) = Ok centers
  /\ get_i_width int_of_float t (e_t_delta e) = Ok w /\ (2 <= w)%Z /\ window_axis w t (e_t_delta e) = Ok t0
  /\ measured percentile (e_waveforms e) (e_mask e) (e_t_delta e) (e_config e) l t centers = Ok (m, dirs, y_zero, y_ua)
  /\ step5_heatmap int_of_float cast fuel (e_t_delta e) t y_zero y_ua (combine (map snd (waves (e_waveforms e))) centers) (e_resolution e) (c_point_cloud (e_config e)) (n_sym m) = Ok (e_heatmap e1)
  /\ e_calculated e1 = true /\ e_edge_dir e1 = (match dirs with Some d => Some d | None => e_edge_dir e end) /\ (e_resolution e <> 0)%Z.
Proof.
  intros (C & G & P & SP & D). destruct (calculate_inv _ _ _ _ _ _ _ _ d e m e1 C) as (l & eg & t' & h & dirs & im & FL & CK & SP' & PL & RS & M & H & IM & DI & CE & IN & CA & CF).
  unfold get_clock_edges in G. rewrite CA, CE in G. injection G as ->. rewrite SP in SP'. injection SP' as <-. pose proof (period_pos _ _ P SP) as TP.
  unfold results in RS. destruct (Reqb (e_t_delta e) 0); [discriminate|]. apply bind_ok in RS. destruct RS as (centers & SA & RS). apply bind_ok in RS. destruct RS as ([[[m' dirs'] yz] ua] & ME & RS).
  apply bind_ok in RS. destruct RS as (h' & HM & RS). apply bind_ok in RS. destruct RS as (pr & _ & RS). apply bind_ok in RS. destruct RS as (u & PI & RS). injection RS as -> -> -> _ _.
  assert (Z : (e_resolution e <> 0)%Z). { intros Z. unfold pictures, draw_images, clean_image in PI. rewrite Z in PI. destruct pr as [[mc o] x]. discriminate PI. }
  destruct (i_width_ok t (e_t_delta e) TP D) as (w & W & W2). destruct (window_axis_ok w t (e_t_delta e) W2) as (t0 & T0).
  exists l, centers, w, t0, dirs, yz, ua. rewrite H. repeat (split; [assumption|]). assumption.
Qed.
Lemma waves_length a w : In w (waves a) -> length (fst w) = length (snd w).
Proof. unfold waves. intros I. apply in_map_iff in I. destruct I as (i & <- & _). cbn [fst snd]. unfold row. rewrite !map_length. reflexivity. Qed.
Lemma centers_symbols t td edges ws centers w t0 : 0 < t -> 0 < td -> sample_all t td edges ws = Ok centers -> (forall w, In w ws -> length (fst w) = length (snd w)) ->
  get_i_width int_of_float t td = Ok w -> window_axis w t td = Ok t0 ->
  exists syms, Forall2 (record_symbols t td) (combine ws edges) syms
    /\ map (map snd) syms = map (fun yc => map (samples_of t0 (fst yc) w t) (snd yc)) (combine (map snd ws) centers)
    /\ Forall2 (fun s c => length s = length c) syms centers.
Proof.
  intros T D E L W T0. destruct (sample_all_inv _ _ _ _ _ E) as (LE & F). clear E. revert edges centers LE F.
  induction ws as [|wv ws IH]; intros edges centers LE F; [cbn in F; inversion F; subst; exists []; repeat split; constructor|]. destruct edges as [|eg edges]; [cbn in LE; lia|].
  cbn [combine] in F. inversion F as [|? c ? cs (tz & N & S3) F' X1 X2]; subst. cbn [fst snd] in N, S3. destruct (IH (fun w' I => L w' (or_intror I)) edges cs ltac:(cbn in LE; lia) F') as (syms & F1 & E1 & L1).
  rewrite (L wv (or_introl eq_refl)) in S3. destruct (step3_seen _ _ _ _ _ _ _ _ T D S3 W T0) as (u & SU & SE). pose proof (same_length _ _ _ SE) as LU.
  exists (combine u (map (samples_of t0 (snd wv) w t) c) :: syms). split; [|split].
  - cbn [combine]. constructor; [|exact F1]. exists tz. cbn [fst snd]. split; [exact N|]. rewrite map_fst_combine by (rewrite map_length; exact LU). rewrite (L wv (or_introl eq_refl)). split; [exact SU|].
    clear -SE. induction SE; cbn [map combine]; constructor; assumption.
  - cbn [map combine fst snd]. rewrite map_snd_combine by (rewrite map_length; exact LU). f_equal. exact E1.
  - constructor; [|exact L1]. rewrite combine_length, map_length. lia.
Qed.
Lemma all_inside t td edges ws centers w : sample_all t td edges ws = Ok centers -> (forall w, In w ws -> length (fst w) = length (snd w)) -> get_i_width int_of_float t td = Ok w ->
  forall wv (s : R * Z), In wv (combine (map snd ws) centers) -> In s (snd wv) -> (0 <= snd s - w /\ snd s + w < Z.of_nat (length (fst wv)))%Z.
Proof.
  intros SA L W. destruct (sample_all_inv _ _ _ _ _ SA) as (LE & F). clear SA. revert edges centers LE F.
  induction ws as [|x ws IH]; intros edges centers LE F wv s I IS; [destruct I|]. destruct edges as [|eg edges]; [cbn in LE; lia|].
  cbn [combine] in F. inversion F as [|? c ? cs (tz & N & S3) F' X1 X2]; subst. cbn [fst snd] in N, S3. cbn [map combine] in I. destruct I as [<-|I].
  - cbn [fst snd] in IS |- * . rewrite <- (L x (or_introl eq_refl)). exact (step3_inside _ _ _ _ _ _ _ _ _ S3 W s IS).
  - exact (IH (fun w' I => L w' (or_intror I)) edges cs ltac:(cbn in LE; lia) F' wv s I IS).
Qed.
Lemma concat_lengths {X Y} (a : list (list X)) (b : list (list Y)) : Forall2 (fun u c => length u = length c) a b -> length (concat a) = length (concat b).
Proof. induction 1 as [|x y a b E F IH]; [reflexivity|]. cbn [concat]. rewrite !app_length, E, IH. reflexivity. Qed.
Lemma measured_counts w mk td c l t centers m dirs yz ua : measured percentile w mk td c l t centers = Ok (m, dirs, yz, ua) ->
  n_sym m = count_symbols centers /\ n_samples m = count_samples centers t td /\ (c_skip_measures c = true -> in_y m = None /\ in_t m = None /\ mask_margin m = None /\ n_sym_bad m = None /\ bathtub_curve m = None /\ yz = l_zero l /\ ua = l_ua l).
Proof.
  unfold measured. destruct (c_skip_measures c).
  - intros E. injection E as <- <- <- <-. repeat split.
  - destruct (collect _ _) as [vs failed]. intros E. apply bind_ok in E. destruct E as (? & _ & E). apply bind_ok in E. destruct E as (m0 & _ & E). apply bind_ok in E. destruct E as (amp & _ & E).
    destruct (update_levels _ _ _ _ _ _ _) as [[a b] h]. do 2 (apply bind_ok in E; destruct E as (? & _ & E)). apply bind_ok in E. destruct E as ([[[offs hs] mg] cnt] & _ & E). apply bind_ok in E. destruct E as (? & _ & E). injection E as <- <- <- <-. repeat split; intros; discriminate.
Qed.

(** ** Symbols *)
Lemma whole d e m e1 edges t : completed d e m e1 edges t -> exists l centers w t0 dirs y_zero y_ua syms,
  0 < t /\ find_levels (e_config e) (all_samples (e_waveforms e)) d = Ok l
  /\ sample_all t (e_t_delta e) edges (waves (e_waveforms e)) = Ok centers
  /\ get_i_width int_of_float t (e_t_delta e) = Ok w /\ window_axis w t (e_t_delta e) = Ok t0
  /\ measured percentile (e_waveforms e) (e_mask e) (e_t_delta e) (e_config e) l t centers = Ok (m, dirs, y_zero, y_ua)
  /\ step5_heatmap int_of_float cast fuel (e_t_delta e) t y_zero y_ua (combine (map snd (waves (e_waveforms e))) centers) (e_resolution e) (c_point_cloud (e_config e)) (n_sym m) = Ok (e_heatmap e1)
  /\ e_calculated e1 = true /\ e_edge_dir e1 = (match dirs with Some d => Some d | None => e_edge_dir e end) /\ (e_resolution e <> 0)%Z
  /\ Forall2 (record_symbols t (e_t_delta e)) (combine (waves (e_waveforms e)) edges) syms /\ length syms = length (waves (e_waveforms e))
  /\ map (map snd) syms = map (fun yc => map (samples_of t0 (fst yc) w t) (snd yc)) (combine (map snd (waves (e_waveforms e))) centers)
  /\ n_sym m = Z.of_nat (length (concat syms)) /\ length (concat centers) = length (concat syms).
Proof.
  intros C. destruct (report _ _ _ _ _ _ C) as (l & centers & w & t0 & dirs & yz & ua & T & FL & SA & W & W2 & T0 & ME & HM & CA & DI & RN). pose proof C as (_ & _ & _ & _ & D).
  destruct (centers_symbols _ _ _ _ _ _ _ T D SA (waves_length (e_waveforms e)) W T0) as (syms & F & PS & LS). destruct (sample_all_inv _ _ _ _ _ SA) as (LE & _).
  exists l, centers, w, t0, dirs, yz, ua, syms. repeat (split; [assumption|]). split; [rewrite <- (same_length _ _ _ F), combine_length; lia|]. split; [exact PS|].
  destruct (measured_counts _ _ _ _ _ _ _ _ _ _ _ ME) as (N & _). rewrite N. unfold count_symbols. rewrite (concat_lengths _ _ LS). split; reflexivity.
Qed.
Theorem C58_symbols d e m e1 edges t : completed d e m e1 edges t ->
  exists syms, Forall2 (record_symbols t (e_t_delta e)) (combine (waves (e_waveforms e)) edges) syms
    /\ length syms = length (waves (e_waveforms e))
    /\ n_sym m = Z.of_nat (length (concat syms))
    /\ IZR (n_samples m) <= IZR (n_sym m) * t / e_t_delta e < IZR (n_samples m) + 1.
Proof.
  intros C. destruct (whole _ _ _ _ _ _ C) as (l & centers & w & t0 & dirs & yz & ua & syms & T & FL & SA & W & T0 & ME & HM & CA & DI & RN & F & LS & PS & N & LC). pose proof C as (_ & _ & _ & _ & D).
  exists syms. split; [exact F|]. split; [exact LS|]. split; [exact N|]. destruct (measured_counts _ _ _ _ _ _ _ _ _ _ _ ME) as (N' & S & _). 
  rewrite S, N'. unfold count_samples. apply truncR_pos. apply Rmult_le_pos; [|left; apply Rinv_0_lt_compat; exact D]. apply Rmult_le_pos; [apply IZR_le; unfold count_symbols; lia|lra].
Qed.

(** ** Bits and levels *)
Lemma measured_inv w mk td c l t centers m dirs yz ua : c_skip_measures c = false -> measured percentile w mk td c l t centers = Ok (m, dirs, yz, ua) ->
  exists vs m0 amp yc offs hs mg bad,
    mapM (fun x : list R * list (R * Z) => sample_vertical int_of_float (fst x) (snd x) td t (l_half l) (c_level_width c) (c_cross_width c)) (combine (map snd (waves w)) centers) = Ok vs
    /\ dirs = Some (map (fun v => v_edge_dir v) vs)
    /\ (forall q, transition_dist m q = v_transitions (fold_left merge vs no_vertical) q)
    /\ in_y m = Some (measure_y percentile (c_noise_floor c) (fold_left merge vs no_vertical))
    /\ some_value (m_y_0 (measure_y percentile (c_noise_floor c) (fold_left merge vs no_vertical))) = Ok m0
    /\ some_value (m_amp (measure_y percentile (c_noise_floor c) (fold_left merge vs no_vertical))) = Ok amp
    /\ some_value (m_y_cross (measure_y percentile (c_noise_floor c) (fold_left merge vs no_vertical))) = Ok yc
    /\ (exists yh, update_levels (c_y_0 c) (c_y_1 c) (c_y_th c) m0 amp (l_zero l) (l_half l) = (yz, ua, yh))
    /\ eye_sample_mask int_of_float mk td t yz ua (combine (map snd (waves w)) centers) = Ok (offs, hs, mg, bad)
    /\ mask_margin m = (match mk with Some _ => Some mg | None => None end) /\ n_sym_bad m = (match mk with Some _ => Some bad | None => None end)
    /\ in_t m <> None /\ bathtub_curve m <> None.
Proof.
  intros SK. unfold measured. rewrite SK. destruct (collect _ _) as [vs failed] eqn:CO. intros E. apply bind_ok in E. destruct E as (u & OF & E). destruct failed; [discriminate|]. apply collect_ok in CO.
  apply bind_ok in E. destruct E as (m0 & E0 & E). apply bind_ok in E. destruct E as (amp & E1 & E). destruct (update_levels _ _ _ _ _ _ _) as [[a b] h] eqn:UL.
  apply bind_ok in E. destruct E as (yc & E2 & E). apply bind_ok in E. destruct E as (hz & _ & E). apply bind_ok in E. destruct E as ([[[offs hs] mg] cnt] & MS & E). apply bind_ok in E. destruct E as (cu & _ & E). injection E as <- <- <- <-.
  exists vs, m0, amp, yc, offs, hs, mg, cnt. split; [exact CO|]. repeat (split; [first [reflexivity | assumption | eexists; exact UL | discriminate]|]). discriminate.
Qed.
Lemma filed_values {X} (f : X -> list (R * R)) keep c width (l : list X) (ds : list decision) :
  flat_map (fun sd : X * decision => if keep (snd sd) : bool then values_in c width (f (fst sd)) else []) (combine l ds) = values_at c width keep (combine (map f l) ds).
Proof.
  unfold values_at. revert ds. induction l as [|x l IH]; intros [|d ds]; [reflexivity..|]. cbn [combine map flat_map filter fst snd]. destruct (keep d); cbn [flat_map fst]; rewrite IH; reflexivity.
Qed.
(** What sampling one record gives. *)
Definition sampled (th width lw cw : R) (v : vertical) (pd : list (list (R * R) * decision)) : Prop :=
  Forall (decided th width) pd /\ v_edge_dir v = map edge_of (map snd pd)
  /\ (forall q, v_transitions v q = Z.of_nat (count_occ decision_dec (map snd pd) q))
  /\ v_0 v = values_at (1/2) lw (fun d => negb (cur d)) pd /\ v_1 v = values_at (1/2) lw cur pd
  /\ v_cross v = values_at 0 cw (fun d => xorb (prev d) (cur d)) pd
  /\ v_0_cross v = values_at (1/2) lw (fun d => negb (prev d) && negb (cur d)) pd /\ v_1_cross v = values_at (1/2) lw (fun d => prev d && cur d) pd
  /\ v_avg v = values_at (1/2) 1 (fun _ => true) pd.
Lemma avg_values {X} (f : X -> list (R * R)) (l : list X) (ds : list decision) : length l = length ds ->
  flat_map (fun s => values_in (1/2) 1 (f s)) l = values_at (1/2) 1 (fun _ => true) (combine (map f l) ds).
Proof.
  unfold values_at. revert ds. induction l as [|x l IH]; intros [|d ds] L; try discriminate; [reflexivity|]. cbn [combine map flat_map filter fst snd]. rewrite (IH ds) by (cbn in L; lia). reflexivity.
Qed.
Lemma verticals t td th lw cw edges ws centers w t0 vs : 0 < t -> 0 < td -> Rmax lw (101 / 100 * td / t) < 1 ->
  sample_all t td edges ws = Ok centers -> (forall w, In w ws -> length (fst w) = length (snd w)) -> get_i_width int_of_float t td = Ok w -> window_axis w t td = Ok t0 ->
  mapM (fun x : list R * list (R * Z) => sample_vertical int_of_float (fst x) (snd x) td t th lw cw) (combine (map snd ws) centers) = Ok vs ->
  exists pds, Forall2 (sampled th (Rmax lw (101 / 100 * td / t)) lw cw) vs pds
    /\ map (map fst) pds = map (fun yc => map (samples_of t0 (fst yc) w t) (snd yc)) (combine (map snd ws) centers).
Proof.
  intros T D WI SA L W T0. destruct (sample_all_inv _ _ _ _ _ SA) as (LE & F). clear SA. revert edges centers vs LE F.
  induction ws as [|wv ws IH]; intros edges centers vs LE F E; [cbn in E; injection E as <-; exists []; split; [constructor|reflexivity]|]. destruct edges as [|eg edges]; [cbn in LE; lia|].
  cbn [combine] in F. inversion F as [|? c ? cs (tz & N & S3) F' X1 X2]; subst. cbn [fst snd] in N, S3. cbn [map combine mapM fst snd] in E. apply bind_ok in E. destruct E as (v & E1 & E). apply bind_ok in E. destruct E as (vs' & E2 & E). injection E as <-.
  destruct (IH (fun w' I => L w' (or_intror I)) edges cs vs' ltac:(cbn in LE; lia) F' E2) as (pds & F1 & EP). rewrite (L wv (or_introl eq_refl)) in S3.
  destruct (C40_vertical t td tz th lw cw (snd wv) eg c w t0 T D WI S3 W T0) as (v' & decs & E3 & DE & ED & TR & _ & V0 & V1 & VC & V0C & V1C & VA). rewrite E1 in E3. injection E3 as <-.
  pose proof (same_length _ _ _ DE) as LD. assert (LM : length (map (samples_of t0 (snd wv) w t) c) = length decs) by (rewrite map_length; exact LD).
  exists (combine (map (samples_of t0 (snd wv) w t) c) decs :: pds). split.
  - constructor; [|exact F1]. unfold sampled. rewrite map_snd_combine by exact LM. split; [|split; [exact ED|split; [exact TR|]]].
    + clear -DE. induction DE as [|s d c decs H DE IH]; [constructor|]. cbn [map combine]. constructor; [exact H|exact IH].
    + rewrite V0, V1, VC, V0C, V1C, VA. set (f := samples_of t0 (snd wv) w t). split; [exact (filed_values f (fun d => negb (cur d)) _ _ c decs)|]. split; [exact (filed_values f cur _ _ c decs)|]. split; [exact (filed_values f (fun d => xorb (prev d) (cur d)) _ _ c decs)|].
      split; [exact (filed_values f (fun d => negb (prev d) && negb (cur d)) _ _ c decs)|]. split; [exact (filed_values f (fun d => prev d && cur d) _ _ c decs)|]. apply avg_values. exact LD.
  - cbn [map combine fst snd]. rewrite map_fst_combine by exact LM. f_equal. exact EP.
Qed.
Lemma values_at_app c width keep a b : values_at c width keep (a ++ b) = values_at c width keep a ++ values_at c width keep b.
Proof. unfold values_at. rewrite filter_app, flat_map_app. reflexivity. Qed.
Lemma fold_merge th width lw cw vs pds : Forall2 (sampled th width lw cw) vs pds ->
  let v := fold_left merge vs no_vertical in let pd := concat pds in
  Forall (decided th width) pd /\ (forall q, v_transitions v q = Z.of_nat (count_occ decision_dec (map snd pd) q))
  /\ v_0 v = values_at (1/2) lw (fun d => negb (cur d)) pd /\ v_1 v = values_at (1/2) lw cur pd
  /\ v_cross v = values_at 0 cw (fun d => xorb (prev d) (cur d)) pd
  /\ v_0_cross v = values_at (1/2) lw (fun d => negb (prev d) && negb (cur d)) pd /\ v_1_cross v = values_at (1/2) lw (fun d => prev d && cur d) pd
  /\ v_avg v = values_at (1/2) 1 (fun _ => true) pd.
Proof.
  intros F. assert (G : forall vs pds v0 pd0, Forall2 (sampled th width lw cw) vs pds ->
    Forall (decided th width) pd0 /\ (forall q, v_transitions v0 q = Z.of_nat (count_occ decision_dec (map snd pd0) q))
    /\ v_0 v0 = values_at (1/2) lw (fun d => negb (cur d)) pd0 /\ v_1 v0 = values_at (1/2) lw cur pd0
    /\ v_cross v0 = values_at 0 cw (fun d => xorb (prev d) (cur d)) pd0
    /\ v_0_cross v0 = values_at (1/2) lw (fun d => negb (prev d) && negb (cur d)) pd0 /\ v_1_cross v0 = values_at (1/2) lw (fun d => prev d && cur d) pd0
    /\ v_avg v0 = values_at (1/2) 1 (fun _ => true) pd0 ->
    let v := fold_left merge vs v0 in let pd := pd0 ++ concat pds in
    Forall (decided th width) pd /\ (forall q, v_transitions v q = Z.of_nat (count_occ decision_dec (map snd pd) q))
    /\ v_0 v = values_at (1/2) lw (fun d => negb (cur d)) pd /\ v_1 v = values_at (1/2) lw cur pd
    /\ v_cross v = values_at 0 cw (fun d => xorb (prev d) (cur d)) pd
    /\ v_0_cross v = values_at (1/2) lw (fun d => negb (prev d) && negb (cur d)) pd /\ v_1_cross v = values_at (1/2) lw (fun d => prev d && cur d) pd
    /\ v_avg v = values_at (1/2) 1 (fun _ => true) pd).
  { clear. induction vs as [|v vs IH]; intros pds v0 pd0 F H; inversion F as [|? pd ? pds' S F']; subst; cbn [fold_left concat]; [rewrite app_nil_r; exact H|].
    rewrite app_assoc. apply (IH pds' (merge v0 v) (pd0 ++ pd) F'). destruct H as (H1 & H2 & H3 & H4 & H5 & H6 & H7 & H8). destruct S as (S1 & _ & S2 & S3 & S4 & S5 & S6 & S7 & S8).
    cbn [merge v_0 v_1 v_cross v_0_cross v_1_cross v_avg v_transitions]. rewrite !values_at_app. rewrite H3, H4, H5, H6, H7, H8, S3, S4, S5, S6, S7, S8.
    split; [apply Forall_app; split; assumption|]. split; [|repeat split]. intros q. rewrite H2, S2, map_app, count_occ_app. lia. }
  apply (G vs pds no_vertical [] F). repeat split. constructor.
Qed.
Lemma count_all (l : list decision) : zsum (map (fun q => Z.of_nat (count_occ decision_dec l q)) all_decisions) = Z.of_nat (length l).
Proof.
  induction l as [|d l IH]; [reflexivity|]. cbn [length]. rewrite Nat2Z.inj_succ, <- IH. clear IH. 
  unfold all_decisions, zsum. cbn [map fold_right]. 
  assert (H : forall q, Z.of_nat (count_occ decision_dec (d :: l) q) = (Z.of_nat (count_occ decision_dec l q) + (if decision_dec d q then 1 else 0))%Z) by (intros q; cbn [count_occ]; destruct (decision_dec d q); lia).
  rewrite !H. destruct d as [[[|] [|]] [|]]; cbv [decision_dec]; cbn; lia.
Qed.
Definition width (e : eye) (t : R) : R := Rmax (c_level_width (e_config e)) (101 / 100 * e_t_delta e / t).
(** The decisions behind everything reported. *)
Theorem C58_decisions d e m e1 edges t : completed d e m e1 edges t -> c_skip_measures (e_config e) = false -> width e t < 1 ->
  exists l syms pds, find_levels (e_config e) (all_samples (e_waveforms e)) d = Ok l
    /\ Forall2 (record_symbols t (e_t_delta e)) (combine (waves (e_waveforms e)) edges) syms /\ map (map fst) pds = map (map snd) syms
    /\ Forall (decided (l_half l) (width e t)) (concat pds)
    /\ (forall q, transition_dist m q = Z.of_nat (count_occ decision_dec (map snd (concat pds)) q))
    /\ bit_stream e1 true = Ok (map (map (fun s => if xorb (prev (snd s)) (cur (snd s)) then 1 else 0)%Z) pds)
    /\ ((forall pd, In pd pds -> chained (map snd pd) /\ exists s, In s pd /\ prev (snd s) <> cur (snd s)) ->
         bit_stream e1 false = Ok (map (map (fun s => if cur (snd s) then 1 else 0)%Z) pds))
    /\ exists my, in_y m = Some my
         /\ m_y_0 my = usamples (values_at (1/2) (c_level_width (e_config e)) (fun d => negb (cur d)) (concat pds))
         /\ m_y_1 my = usamples (values_at (1/2) (c_level_width (e_config e)) cur (concat pds))
         /\ m_y_cross my = usamples (values_at 0 (c_cross_width (e_config e)) (fun d => xorb (prev d) (cur d)) (concat pds))
         /\ m_y_0_cross my = usamples (values_at (1/2) (c_level_width (e_config e)) (fun d => negb (prev d) && negb (cur d)) (concat pds))
         /\ m_y_1_cross my = usamples (values_at (1/2) (c_level_width (e_config e)) (fun d => prev d && cur d) (concat pds))
         /\ m_y_avg my = usamples (values_at (1/2) 1 (fun _ => true) (concat pds))
         /\ m_amp my = lift2 usub (m_y_1 my) (m_y_0 my) /\ m_y_0 my <> None /\ m_y_1 my <> None /\ m_y_cross my <> None.
Proof.
  intros C SK WI. destruct (whole _ _ _ _ _ _ C) as (l & centers & w & t0 & dirs & yz & ua & syms & T & FL & SA & W & T0 & ME & HM & CA & DI & RN & F & LS & PS & N & LC). pose proof C as (_ & _ & _ & _ & D).
  destruct (measured_inv _ _ _ _ _ _ _ _ _ _ _ SK ME) as (vs & m0 & amp & yc & offs & hs & mg & bad & MV & ED & TD & IY & M0 & MA & MC & _).
  destruct (verticals _ _ _ _ _ _ _ _ _ _ _ T D WI SA (waves_length (e_waveforms e)) W T0 MV) as (pds & SP & EP). destruct (fold_merge _ _ _ _ _ _ SP) as (G1 & G2 & G3 & G4 & G5 & G6 & G7 & G8).
  exists l, syms, pds. split; [exact FL|]. split; [exact F|]. split; [rewrite PS; exact EP|]. split; [exact G1|]. split; [intros q; rewrite TD; apply G2|].
  assert (EDS : map (fun v => v_edge_dir v) vs = map (map edge_of) (map (map snd) pds)). { clear -SP. induction SP as [|v pd vs pds S SP IH]; [reflexivity|]. cbn [map]. f_equal; [apply S|exact IH]. }
  unfold bit_stream. rewrite CA, DI, ED, EDS. split; [|split].
  - rewrite C41_toggle_stream. f_equal. rewrite map_map. apply map_ext. intros pd. rewrite map_map. reflexivity.
  - intros H. rewrite C41_bit_stream; [f_equal; rewrite map_map; apply map_ext; intros pd; rewrite map_map; reflexivity|].
    intros ds I. apply in_map_iff in I. destruct I as (pd & <- & I). destruct (H pd I) as (CH & s & IS & NE). split; [exact CH|]. exists (snd s). split; [apply in_map; exact IS|]. unfold edge_of. destruct (prev (snd s)), (cur (snd s)); congruence.
  - eexists. split; [exact IY|]. unfold measure_y in M0, MA, MC |- * . cbn [m_y_0 m_y_1 m_y_cross m_y_0_cross m_y_1_cross m_y_avg m_amp] in M0, MA, MC |- * .
    rewrite <- G3, <- G4, <- G5, <- G6, <- G7, <- G8. repeat (split; [reflexivity|]). unfold some_value, lift2 in M0, MA, MC.
    destruct (usamples (v_0 _)); [|discriminate]. destruct (usamples (v_1 _)); [|discriminate]. destruct (usamples (v_cross _)); [|discriminate]. repeat split; discriminate.
Qed.
Theorem C58_transitions d e m e1 edges t : completed d e m e1 edges t -> c_skip_measures (e_config e) = false -> width e t < 1 ->
  zsum (map (transition_dist m) all_decisions) = n_sym m /\ (forall q, (0 <= transition_dist m q)%Z)
  /\ exists bits, bit_stream e1 false = Ok bits /\ length bits = length (waves (e_waveforms e)) /\ Z.of_nat (length (concat bits)) = n_sym m /\ Forall (fun b => b = 0 \/ b = 1)%Z (concat bits).
Proof.
  intros C SK WI. destruct (whole _ _ _ _ _ _ C) as (l & centers & w & t0 & dirs & yz & ua & syms & T & FL & SA & W & T0 & ME & HM & CA & DI & RN & F & LS & PS & N & LC). pose proof C as (_ & _ & _ & _ & D).
  destruct (measured_inv _ _ _ _ _ _ _ _ _ _ _ SK ME) as (vs & m0 & amp & yc & offs & hs & mg & bad & MV & ED & TD & IY & M0 & MA & MC & _).
  destruct (verticals _ _ _ _ _ _ _ _ _ _ _ T D WI SA (waves_length (e_waveforms e)) W T0 MV) as (pds & SP & EP). destruct (fold_merge _ _ _ _ _ _ SP) as (G1 & G2 & _).
  assert (LP : length (concat pds) = length (concat syms)). { rewrite <- PS in EP. clear -EP. revert syms EP. induction pds as [|p pds IH]; intros [|s syms] E; try discriminate; [reflexivity|]. cbn [map] in E. injection E as E1 E2. cbn [concat]. rewrite !app_length, (IH _ E2). f_equal. rewrite <- (map_length fst p), E1, map_length. reflexivity. }
  split; [|split].
  - rewrite N, <- LP, <- (map_length snd (concat pds)), <- count_all. f_equal. apply map_ext. intros q. rewrite TD. apply G2.
  - intros q. rewrite TD, G2. lia.
  - unfold bit_stream. rewrite CA, DI, ED. unfold get_bit_stream. cbn [negb]. eexists. split; [reflexivity|].
    assert (B : forall dir, length (bits_of false dir) = length dir /\ Forall (fun b => b = 0 \/ b = 1)%Z (bits_of false dir)).
    { intros dir. destruct (C41_last_edge dir) as (bits & E & LB & FB & _). unfold get_bit_stream in E. cbn [negb map] in E. injection E as <-. split; assumption. }
    assert (LV : Forall2 (fun v (pd : list (list (R * R) * decision)) => length (v_edge_dir v) = length pd) vs pds). { clear -SP. induction SP as [|v pd vs pds S SP IH]; constructor; [|exact IH]. destruct S as (_ & -> & _). rewrite !map_length. reflexivity. }
    rewrite !map_length. split; [|split].
    + rewrite (same_length _ _ _ LV). rewrite <- LS. rewrite <- (map_length (map fst) pds), EP, <- PS, map_length. reflexivity.
    + rewrite N, <- LP. f_equal. clear -LV B. induction LV as [|v pd vs pds E LV IH]; [reflexivity|]. cbn [map concat]. rewrite !app_length, IH. f_equal. rewrite (proj1 (B _)). exact E.
    + clear -B. induction vs as [|v vs IH]; [constructor|]. cbn [map concat]. apply Forall_app. split; [apply B|exact IH].
Qed.
(** The measured levels are on their sides of the threshold. *)
Theorem C58_levels d e m e1 edges t : completed d e m e1 edges t -> c_skip_measures (e_config e) = false -> 
  101 / 100 * e_t_delta e / t <= c_level_width (e_config e) < 1 ->
  exists l my u0 u1 ua, find_levels (e_config e) (all_samples (e_waveforms e)) d = Ok l /\ in_y m = Some my
    /\ m_y_0 my = Some u0 /\ m_y_1 my = Some u1 /\ m_amp my = Some ua
    /\ value u0 <= l_half l < value u1 /\ value ua = value u1 - value u0.
Proof.
  intros C SK (W1 & W2). assert (EW : width e t = c_level_width (e_config e)) by (apply Rmax_left; exact W1).
  destruct (C58_decisions _ _ _ _ _ _ C SK ltac:(rewrite EW; exact W2)) as (l & syms & pds & FL & _ & _ & DE & _ & _ & _ & my & IY & Y0 & Y1 & _ & _ & _ & _ & AM & N0 & N1 & _). rewrite EW in DE.
  exists l, my. set (lw := c_level_width (e_config e)) in *  . set (pd := concat pds) in *  . clearbody pd.
  assert (V : forall keep, values_at (1/2) lw keep pd = concat (map (fun s => values_in (1/2) lw (fst s)) (filter (fun s => keep (snd s)) pd))) by (intros keep; unfold values_at; apply flat_map_concat_map).
  assert (NE : forall x, usamples x <> None -> x <> []) by (intros x H ->; apply H; reflexivity). 
  rewrite Y0 in N0. rewrite Y1 in N1. apply NE in N0, N1. destruct (usamples_spec _ N0) as (u0 & E0 & M0 & _). destruct (usamples_spec _ N1) as (u1 & E1 & M1 & _). rewrite E0 in Y0. rewrite E1 in Y1. rewrite Y0, Y1 in AM. cbn [lift2] in AM.
  exists u0, u1, (usub u1 (OU u0)). repeat (split; [assumption|]). pose proof (len_ne _ N0) as L0. pose proof (len_ne _ N1) as L1. 
  assert (Q0 : value u0 = Pam2Spec.mean (values_at (1/2) lw (fun d => negb (cur d)) pd)) by (unfold Pam2Spec.mean; rewrite <- M0; field; lra).
  assert (Q1 : value u1 = Pam2Spec.mean (values_at (1/2) lw cur pd)) by (unfold Pam2Spec.mean; rewrite <- M1; field; lra).
  split; [|reflexivity]. rewrite Q0, Q1, !V. rewrite V in N0, N1. rewrite Forall_forall in DE. split.
  - apply concat_below; [|exact N0]. intros x I. apply in_map_iff in I. destruct I as (s & <- & I). apply filter_In in I. destruct I as (I & K). destruct (DE s I) as (_ & (NV & DC) & _). split; [exact NV|].
    apply Rnot_lt_le. intros Q. apply DC in Q. rewrite Q in K. discriminate.
  - apply concat_above; [|exact N1]. intros x I. apply in_map_iff in I. destruct I as (s & <- & I). apply filter_In in I. destruct I as (I & K). destruct (DE s I) as (_ & (NV & DC) & _). split; [exact NV|]. apply DC. exact K.
Qed.
(** ** Mask *)
Theorem C58_mask d e m e1 edges t : completed d e m e1 edges t ->
  (e_mask e = None \/ c_skip_measures (e_config e) = true -> mask_margin m = None /\ n_sym_bad m = None)
  /\ (e_mask e <> None -> c_skip_measures (e_config e) = false -> exists k bad, (k <= 2000)%nat
        /\ mask_margin m = Some (IZR (1000 - Z.of_nat k) / 1000) /\ n_sym_bad m = Some bad
        /\ (Z.of_nat bad <= n_sym m)%Z /\ (IZR (1000 - Z.of_nat k) / 1000 < 0 <-> (0 < bad)%nat)).
Proof.
  intros C. destruct (whole _ _ _ _ _ _ C) as (l & centers & w & t0 & dirs & yz & ua & syms & T & FL & SA & W & T0 & ME & HM & CA & DI & RN & F & LS & PS & N & LC).
  destruct (measured_counts _ _ _ _ _ _ _ _ _ _ _ ME) as (_ & _ & SKIP). split.
  - intros [NM|SK]; [|destruct (SKIP SK) as (_ & _ & A & B & _); split; assumption]. destruct (c_skip_measures (e_config e)) eqn:SK; [destruct (SKIP eq_refl) as (_ & _ & A & B & _); split; assumption|].
    destruct (measured_inv _ _ _ _ _ _ _ _ _ _ _ SK ME) as (vs & m0 & amp & yc & offs & hs & mg & bad & _ & _ & _ & _ & _ & _ & _ & _ & _ & MM & NB & _). rewrite NM in MM, NB. split; assumption.
  - intros NM SK. destruct (measured_inv _ _ _ _ _ _ _ _ _ _ _ SK ME) as (vs & m0 & amp & yc & offs & hs & mg & bad & _ & _ & _ & _ & _ & _ & _ & _ & MS & MM & NB & _).
    destruct (e_mask e) as [mk|]; [|congruence]. destruct (eye_sample_mask_inv _ _ _ _ _ _ _ _ _ _ _ MS) as (LB & k & K & EK & NEG). exists k, bad. rewrite <- EK. repeat (split; [assumption|]). split; [|exact NEG].
    rewrite N, <- LC. apply Nat2Z.inj_le. apply (Nat.le_trans _ _ _ LB). clear. generalize (map snd (waves (e_waveforms e))) as a. intros a. revert centers. induction a as [|x a IH]; intros [|c cs]; cbn [combine map concat snd]; try (cbn; lia). rewrite !app_length. specialize (IH cs). unfold symbol in *  . cbn [snd]. lia.
Qed.
(** ** Heat map *)
Lemma pyslice_map {X Y} (f : X -> Y) l lo hi : pyslice (map f l) lo hi = map f (pyslice l lo hi).
Proof. unfold pyslice. rewrite map_length, skipn_map, firstn_map. reflexivity. Qed.
Lemma symbol_pixels_view yz ua res w t0 t (y : list R) (s : R * Z) :
  symbol_pixels cast y t (- (1/2) * ua + yz) (3/2 * ua + yz) res w t0 s = map (image_point cast res yz ua) (samples_of t0 y w t s).
Proof.
  unfold symbol_pixels, EyeRProofs.points, samples_of, window_fb, normalise_y. cbn [fst snd]. rewrite pyslice_map. set (a := map _ t0). set (b := pyslice y _ _). clearbody a b. revert b.
  induction a as [|x a IH]; intros [|z b]; [reflexivity..|]. cbn [combine map]. f_equal; [|apply IH]. unfold pixel_of, image_point. cbn [fst snd nadd nsub nmul ndiv NumR].
  replace (z - (- (1 / 2) * ua + yz)) with (z - (yz - ua / 2)) by lra. replace (3 / 2 * ua + yz - (- (1 / 2) * ua + yz)) with (2 * ua) by lra. reflexivity.
Qed.
Lemma all_pixels {X} (syms : list (list (X * list (R * R)))) (f : list R * list (R * Z) -> (R * Z) -> list (R * R)) ws (g : R * R -> Z * Z) :
  map (map snd) syms = map (fun yc => map (f yc) (snd yc)) ws ->
  flat_map (fun yc => map (fun s => map g (f yc s)) (snd yc)) ws = map (fun s => map g (snd s)) (concat syms).
Proof.
  revert syms. induction ws as [|yc ws IH]; intros [|sy syms] E; try discriminate; [reflexivity|]. cbn [map] in E. injection E as E1 E2. cbn [flat_map concat]. rewrite map_app, (IH _ E2). f_equal.
  rewrite <- (map_map snd (map g) sy), E1, map_map. reflexivity.
Qed.
(** The levels of the image: the given ones, else the measured ones, else (not
    measured) those found at the start. *)
Definition drawn_levels (c : config) (l : levels) (m : measures) (low amp : R) : Prop :=
  if c_skip_measures c then low = l_zero l /\ amp = l_ua l
  else exists my u0 ua, in_y m = Some my /\ m_y_0 my = Some u0 /\ m_amp my = Some ua
    /\ low = (match c_y_0 c with Some v => v | None => value u0 end)
    /\ amp = (match c_y_1 c with Some v => v - low | None => value ua end).
Lemma found_low c y d l v : find_levels c y d = Ok l -> c_y_0 c = Some v -> l_zero l = v.
Proof. unfold find_levels, EyeRunModel.find_levels. intros E Y. rewrite Y in E. apply bind_ok in E. destruct E as ([a b] & _ & E). injection E as <-. reflexivity. Qed.
Lemma drawn e d l t centers m dirs yz ua : find_levels (e_config e) (all_samples (e_waveforms e)) d = Ok l ->
  measured percentile (e_waveforms e) (e_mask e) (e_t_delta e) (e_config e) l t centers = Ok (m, dirs, yz, ua) -> drawn_levels (e_config e) l m yz ua.
Proof.
  intros FL ME. unfold drawn_levels. destruct (c_skip_measures (e_config e)) eqn:SK; [destruct (measured_counts _ _ _ _ _ _ _ _ _ _ _ ME) as (_ & _ & S); destruct (S SK) as (_ & _ & _ & _ & _ & A & B); split; assumption|].
  destruct (measured_inv _ _ _ _ _ _ _ _ _ _ _ SK ME) as (vs & m0 & amp & yc & offs & hs & mg & bad & _ & _ & _ & IY & M0 & MA & _ & (yh & UL) & _). 
  destruct (m_y_0 (measure_y percentile (c_noise_floor (e_config e)) (fold_left merge vs no_vertical))) as [u0|] eqn:E0; [|discriminate]. destruct (m_amp (measure_y percentile (c_noise_floor (e_config e)) (fold_left merge vs no_vertical))) as [u|] eqn:EA; [|discriminate].
  injection M0 as <-. injection MA as <-. eexists _, u0, u. split; [exact IY|]. split; [exact E0|]. split; [exact EA|]. unfold update_levels in UL. injection UL as <- <- _.
  destruct (c_y_0 (e_config e)) eqn:Y0; [rewrite (found_low _ _ _ _ _ FL Y0)|]; split; reflexivity.
Qed.
Theorem C58_heatmap d e m e1 edges t : completed d e m e1 edges t -> (0 <= e_resolution e)%Z ->
  let res := e_resolution e in
  exists l syms low amp img, find_levels (e_config e) (all_samples (e_waveforms e)) d = Ok l
    /\ Forall2 (record_symbols t (e_t_delta e)) (combine (waves (e_waveforms e)) edges) syms
    /\ drawn_levels (e_config e) l m low amp /\ get_raw_heatmap e1 = Ok img
    /\ let shapes := map (fun s => map (image_point cast res low amp) (snd s)) (concat syms) in
       (c_point_cloud (e_config e) = true -> forall col, (0 <= col < res)%Z ->
          exists k, (forall row, (0 <= row < res)%Z -> img row col = k * IZR (visits col (res - 1 - row) (concat shapes)))
            /\ ((exists row, (0 <= row < res)%Z /\ In (col, row) (concat shapes)) -> StatsModel.rsum (map (fun row => img (Z.of_nat row) col) (seq 0 (Z.to_nat res))) = IZR (n_sym m)))
       /\ (c_point_cloud (e_config e) = false -> exists lines enough, Forall2 raster_polyline shapes lines
            /\ ((enough <= fuel)%nat -> forall row col, (0 <= col < res)%Z -> (0 <= row < res)%Z -> img row col = IZR (visits col (res - 1 - row) (concat lines)))).
Proof.
  intros C RP res. destruct (whole _ _ _ _ _ _ C) as (l & centers & w & t0 & dirs & yz & ua & syms & T & FL & SA & W & T0 & ME & HM & CA & DI & RN & F & LS & PS & N & LC). pose proof C as (_ & _ & _ & _ & D).
  exists l, syms, yz, ua, (e_heatmap e1). split; [exact FL|]. split; [exact F|]. split; [exact (drawn _ _ _ _ _ _ _ _ _ FL ME)|]. split; [unfold get_raw_heatmap; rewrite CA; reflexivity|].
  cbv zeta. set (shapes := map (fun s => map (image_point cast res yz ua) (snd s)) (concat syms)).
  pose proof (all_pixels syms (fun yc => samples_of t0 (fst yc) w t) _ (image_point cast res yz ua) PS) as AP. fold shapes in AP.
  assert (SH : flat_map (fun wv : list R * list (R * Z) => map (symbol_pixels cast (fst wv) t (- (1/2) * ua + yz) (3/2 * ua + yz) res w t0) (snd wv)) (combine (map snd (waves (e_waveforms e))) centers) = shapes).
  { rewrite <- AP. apply flat_map_ext. intros yc. apply map_ext. intros s. apply symbol_pixels_view. }
  assert (FM : flat_map (wave_pixels cast t yz ua res w t0) (combine (map snd (waves (e_waveforms e))) centers) = concat shapes).
  { rewrite <- SH. clear. induction (combine _ _) as [|yc ws IH]; [reflexivity|]. cbn [flat_map]. rewrite concat_app, IH. f_equal. unfold wave_pixels. apply flat_map_concat_map. }
  split; intros PC; rewrite PC in HM.
  - intros col HC. destruct (C50_point_cloud cast (e_t_delta e) t yz ua res w t0 fuel (combine (map snd (waves (e_waveforms e))) centers) (n_sym m) W T0 RP) as (img & E & H). rewrite FM in H. unfold res in E. rewrite E in HM. injection HM as <-.
    destruct (H col HC) as (H1 & k & H2). exists k. split; [exact H2|exact H1].
  - assert (FIT : forall wv s, In wv (combine (map snd (waves (e_waveforms e))) centers) -> In s (snd wv) -> (0 <= snd s - w /\ snd s + w < Z.of_nat (length (fst wv)))%Z) by (exact (all_inside t (e_t_delta e) edges _ _ _ SA (waves_length (e_waveforms e)) W)).
    destruct (C50_lines cast (e_t_delta e) t yz ua res w t0 _ (n_sym m) T D W T0 RP FIT) as (lines & RL & enough & H). exists lines, enough. split; [rewrite <- SH; exact RL|]. intros FU. destruct (H fuel FU) as (img & E & HI). unfold res in E. rewrite E in HM. injection HM as <-. intros row col HC HR. exact (HI row col HC HR).
Qed.
(** ** Going through with measurements *)
Lemma foldM_ok {X Y} (f : X -> Y -> result X) l : (forall x y, In y l -> exists z, f x y = Ok z) -> forall a, exists z, foldM f a l = Ok z.
Proof. induction l as [|y l IH]; intros H a; [eexists; reflexivity|]. cbn [foldM]. destruct (H a y (or_introl eq_refl)) as (z & ->). cbn [bind]. apply IH. intros x y' I. apply H. right. exact I. Qed.
Lemma verticals_total t td th lw cw edges ws centers w t0 : 0 < t -> 0 < td -> Rmax lw (101 / 100 * td / t) < 1 ->
  sample_all t td edges ws = Ok centers -> (forall w, In w ws -> length (fst w) = length (snd w)) -> get_i_width int_of_float t td = Ok w -> window_axis w t td = Ok t0 ->
  exists vs, mapM (fun x : list R * list (R * Z) => sample_vertical int_of_float (fst x) (snd x) td t th lw cw) (combine (map snd ws) centers) = Ok vs.
Proof.
  intros T D WI SA L W T0. destruct (sample_all_inv _ _ _ _ _ SA) as (LE & F). clear SA. revert edges centers LE F.
  induction ws as [|wv ws IH]; intros edges centers LE F; [exists []; reflexivity|]. destruct edges as [|eg edges]; [cbn in LE; lia|].
  cbn [combine] in F. inversion F as [|? c ? cs (tz & N & S3) F' X1 X2]; subst. cbn [fst snd] in N, S3. rewrite (L wv (or_introl eq_refl)) in S3.
  destruct (IH (fun w' I => L w' (or_intror I)) edges cs ltac:(cbn in LE; lia) F') as (vs & E). destruct (C40_vertical t td tz th lw cw (snd wv) eg c w t0 T D WI S3 W T0) as (v & _ & E1 & _).
  exists (v :: vs). cbn [map combine mapM fst snd]. rewrite E1. cbn [bind]. rewrite E. reflexivity.
Qed.
Lemma horizontals_total t td yz ua yc hh lo up edges ws centers w t0 vs pds th width lw cw : 0 < t -> 0 < td ->
  sample_all t td edges ws = Ok centers -> (forall w, In w ws -> length (fst w) = length (snd w)) -> get_i_width int_of_float t td = Ok w -> window_axis w t td = Ok t0 ->
  Forall2 (sampled th width lw cw) vs pds -> map (map fst) pds = map (fun yc => map (samples_of t0 (fst yc) w t) (snd yc)) (combine (map snd ws) centers) ->
  exists h, measure_horizontal int_of_float td t yz ua yc hh lo up (combine (combine (map snd ws) centers) (map (fun v => v_edge_dir v) vs)) = Ok h.
Proof.
  intros T D SA L W T0. destruct (sample_all_inv _ _ _ _ _ SA) as (LE & F). clear SA. unfold measure_horizontal. generalize (@no_horizontal R). revert edges centers LE F vs pds.
  induction ws as [|wv ws IH]; intros edges centers LE F vs pds h0 SP EP; [exists h0; reflexivity|]. destruct edges as [|eg edges]; [cbn in LE; lia|].
  cbn [combine] in F. inversion F as [|? c ? cs (tz & N & S3) F' X1 X2]; subst. cbn [fst snd] in N, S3. rewrite (L wv (or_introl eq_refl)) in S3.
  cbn [map combine] in EP. destruct pds as [|pd pds]; [discriminate|]. inversion SP as [|v ? vs' ? SV SP']; subst. cbn [map] in EP. injection EP as E1 E2. cbn [fst snd] in E1.
  cbn [map combine foldM]. destruct SV as (_ & ED & _). assert (LD : length (v_edge_dir v) = length c) by (rewrite ED, !map_length, <- (map_length fst pd), E1, map_length; reflexivity).
  assert (VD : Forall (fun x => x = 0 \/ x = 1 \/ x = -1)%Z (v_edge_dir v)). { rewrite ED. apply Forall_forall. intros x I. apply in_map_iff in I. destruct I as (q & <- & _). unfold edge_of. destruct (prev q), (cur q); lia. }
  destruct (C55_horizontal t td tz yz ua yc hh lo up (snd wv) eg c w t0 (v_edge_dir v) T D S3 W T0 LD VD) as (h & _ & _ & EH & _). rewrite EH. cbn [bind].
  exact (IH (fun w' I => L w' (or_intror I)) edges cs ltac:(cbn in LE; lia) F' vs' pds _ SP' E2).
Qed.
(** With given clock edges in order, no mask and a point cloud: the calculation
    finishes if some symbol is decided low, some high, and some sample is at a
    crossing. *)
Theorem C58_finishes e l edges t : find_levels (e_config e) (all_samples (e_waveforms e)) false = Ok l ->
  e_clock_edges e = Some edges -> symbol_period edges = Ok (Some t) -> (forall p, is_period edges p -> 0 < p) -> 0 < e_t_delta e ->
  (length (waves (e_waveforms e)) <= length edges)%nat -> (forall w, In w (waves (e_waveforms e)) -> fst w <> []) ->
  e_mask e = None -> e_converted e = None -> (1 <= e_resolution e)%Z -> c_point_cloud (e_config e) = true -> c_skip_measures (e_config e) = false ->
  - (1 / 2) <= c_edge_lower (e_config e) < 3 / 2 -> - (1 / 2) <= c_edge_upper (e_config e) < 3 / 2 -> width e t < 1 ->
  exists syms pds, Forall2 (record_symbols t (e_t_delta e)) (combine (waves (e_waveforms e)) edges) syms /\ map (map fst) pds = map (map snd) syms
    /\ Forall (decided (l_half l) (width e t)) (concat pds)
    /\ (values_at (1/2) (c_level_width (e_config e)) (fun d => negb (cur d)) (concat pds) <> [] ->
        values_at (1/2) (c_level_width (e_config e)) cur (concat pds) <> [] ->
        values_at 0 (c_cross_width (e_config e)) (fun d => xorb (prev d) (cur d)) (concat pds) <> [] ->
        exists m e1, completed false e m e1 edges t).
Proof.
  intros FL CE SP P D LE NE NM NC0 RP PC SK EL EU WI. pose proof (period_pos _ _ P SP) as T.
  destruct (i_width_ok t (e_t_delta e) T D) as (w & W & W2). destruct (window_axis_ok w t (e_t_delta e) W2) as (t0 & T0).
  destruct (sample_all_total t (e_t_delta e) edges (waves (e_waveforms e)) T D LE NE) as (centers & SA).
  destruct (centers_symbols _ _ _ _ _ _ _ T D SA (waves_length (e_waveforms e)) W T0) as (syms & F & PS & LS).
  destruct (verticals_total t (e_t_delta e) (l_half l) (c_level_width (e_config e)) (c_cross_width (e_config e)) edges _ centers w t0 T D WI SA (waves_length (e_waveforms e)) W T0) as (vs & MV).
  destruct (verticals _ _ _ _ _ _ _ _ _ _ _ T D WI SA (waves_length (e_waveforms e)) W T0 MV) as (pds & SPD & EP). destruct (fold_merge _ _ _ _ _ _ SPD) as (G1 & G2 & G3 & G4 & G5 & _).
  exists syms, pds. split; [exact F|]. split; [rewrite PS; exact EP|]. split; [exact G1|]. intros N0 N1 NC. rewrite <- G3 in N0. rewrite <- G4 in N1. rewrite <- G5 in NC.
  assert (US : forall x : list R, x <> [] -> exists u, usamples x = Some u) by (intros x H; destruct (usamples_spec x H) as (u & E & _); exists u; exact E).
  destruct (US _ N0) as (u0 & U0). destruct (US _ N1) as (u1 & U1). destruct (US _ NC) as (uc & UC).
  assert (RS : exists r, results percentile cast fuel draw (e_waveforms e) (e_mask e) (e_resolution e) (e_t_delta e) (e_config e) l edges t (e_masked e) = Ok r).
  { unfold EyeRunProofs.results. destruct (Reqb (e_t_delta e) 0) eqn:TZ; [apply Reqb_true in TZ; lra|]. rewrite SA. cbn [bind].
    assert (ME : exists r, measured percentile (e_waveforms e) (e_mask e) (e_t_delta e) (e_config e) l t centers = Ok r).
    { unfold measured. rewrite SK. assert (CO : collect (fun w : list R * list (R * Z) => sample_vertical int_of_float (fst w) (snd w) (e_t_delta e) t (l_half l) (c_level_width (e_config e)) (c_cross_width (e_config e))) (combine (map snd (waves (e_waveforms e))) centers) = (vs, None)) by (apply collect_ok; exact MV).
      rewrite CO. cbn [outcome bind]. unfold measure_y at 1 2 3. cbn [m_y_0 m_amp m_y_cross]. rewrite U0, U1, UC. cbn [lift2 some_value bind].
      destruct (update_levels _ _ _ _ _ _ _) as [[yz ua] yh]. destruct (horizontals_total t (e_t_delta e) yz ua (value uc) (c_time_height (e_config e)) (c_edge_lower (e_config e)) (c_edge_upper (e_config e)) edges _ centers w t0 vs pds _ _ _ _ T D SA (waves_length (e_waveforms e)) W T0 SPD EP) as (h & ->). cbn [bind]. rewrite NM. cbn [eye_sample_mask bind].
      destruct (C49_curves (e_t_delta e) t yz ua (combine (map snd (waves (e_waveforms e))) centers) [1 / 2] w t0 T D W T0) as (cr & BC & _); [exact (all_inside t (e_t_delta e) edges _ _ _ SA (waves_length (e_waveforms e)) W)|]. rewrite BC. cbn [bind]. eexists. reflexivity. }
    destruct ME as ([[[m dirs] yz] ua] & ->). cbn [bind]. rewrite PC. destruct (cloud_total cast fuel t (e_t_delta e) yz ua (combine (map snd (waves (e_waveforms e))) centers) (e_resolution e) (n_sym m) T D) as (h & ->). cbn [bind].
    unfold mask_found. rewrite NM. cbn [bind]. unfold pictures, e_masked. rewrite NC0.
    match goal with |- context [draw_images ?d ?ca ?r ?h ?a ?b None ?mg ?hs ?os ?td ?tt ?yz ?ua ?ws] => destruct (images_ok ca d r h a b mg hs os td tt yz ua ws RP EL EU) as (u & ->) end. cbn [bind]. eexists. reflexivity. }
  destruct RS as ([[[[m h] dirs] im] pr] & RS). destruct (calculate_eq round6 fit aic new_cdr percentile cast fuel draw false e l edges t m h dirs im pr FL) as (e1 & E & _ & _ & _ & _ & CE1 & CA); [unfold EyeRunProofs.clock; rewrite CE; reflexivity|exact SP|intros X; discriminate X|exact RS|].
  exists m, e1. split; [exact E|]. split; [unfold get_clock_edges; rewrite CA, CE1; reflexivity|]. split; [exact P|]. split; [exact SP|exact D].
Qed.
End Report.
Print Assumptions C58_symbols.
Print Assumptions C58_decisions.
Print Assumptions C58_transitions.
Print Assumptions C58_levels.
Print Assumptions C58_mask.
Print Assumptions C58_heatmap.
Print Assumptions C58_finishes.

(** ** A concrete case: the bits 1 0 1 0 ... of four samples each, rising and
    falling through 1/2, with clock edges at the centres of the bits. *)
Definition bits_wave : ndarray :=
  NdArray [2; 28]%nat (fun i => match i with
    | [0%nat; j] => INR j
    | [1%nat; j] => match (j mod 8)%nat with 0%nat | 1%nat | 7%nat => 1 | 2%nat | 6%nat => 1 / 2 | _ => 0 end
    | _ => 0 end).
Definition bits_config : config :=
  Config None (1 / 10) (Some 10000) RISING None 1 false (3 / 10) (1 / 10) (5 / 100) (2 / 10) (8 / 10) 0 true (Some 0) (Some 1) None.
Definition bits_clock : list R := [8; 12; 16; 20].
Definition bits_t : list R := map INR (seq 0 28).
Definition bits_y : list R := map (fun j => match (j mod 8)%nat with 0%nat | 1%nat | 7%nat => 1 | 2%nat | 6%nat => 1 / 2 | _ => 0 end) (seq 0 28).

Lemma only_at (c : nat) c0 b' y lo n : IZR (Z.of_nat c) = b' + 4 * (c0 - 1/2) -> forall v, In v (values_in c0 (3/10) (view 4 1 0 b' y lo n)) -> v = nth c y 0.
Proof.
  intros E v I. unfold values_in in I. apply in_map_iff in I. destruct I as (p & <- & I). apply filter_In in I. destruct I as (I & B). unfold view in I. apply in_map_iff in I. destruct I as (j & <- & _). cbn [fst snd] in B |- * .
  apply andb_true_iff in B. destruct B as (B1 & B2). apply Rleb_true in B1, B2. rewrite INR_IZR_INZ in B1, B2. f_equal.
  assert (G : (Z.of_nat j < Z.of_nat c + 1 /\ Z.of_nat c < Z.of_nat j + 1)%Z) by (split; apply lt_IZR; rewrite plus_IZR; lra). lia.
Qed.
Lemma level_of (c : nat) c0 b' y lo n th d v : IZR (Z.of_nat c) = b' + 4 * (c0 - 1/2) -> nth c y 0 = v -> decides c0 (3/10) th (view 4 1 0 b' y lo n) d -> (d = true <-> th < v).
Proof.
  intros B V (NE & D). rewrite D. set (l := values_in _ _ _) in *  . assert (ALL : forall x, In x l -> x = v) by (intros x I; rewrite <- V; exact (only_at c c0 b' y lo n B x I)).
  assert (M : Pam2Spec.mean l = v); [|rewrite M; tauto]. pose proof (len_ne _ NE) as LP. clearbody l. clear - ALL LP. unfold Pam2Spec.mean.
  assert (SU : StatsModel.rsum l = INR (length l) * v). { clear LP. induction l as [|x l IH]; [cbn; ring|]. cbn [length]. rewrite S_INR. cbn [StatsModel.rsum fold_right]. unfold StatsModel.rsum in IH. rewrite IH by (intros z I; apply ALL; right; exact I). rewrite (ALL x (or_introl eq_refl)). ring. }
  rewrite SU. field. lra.
Qed.
Lemma at_ne c width keep (l : list (list (R * R) * decision)) s : In s l -> keep (snd s) = true -> values_in c width (fst s) <> [] -> values_at c width keep l <> [].
Proof.
  intros I K N E. destruct (values_in c width (fst s)) as [|x r] eqn:V; [congruence|]. assert (IX : In x (values_at c width keep l)); [|rewrite E in IX; destruct IX].
  unfold values_at. apply in_flat_map. exists s. split; [apply filter_In; split; assumption|]. rewrite V. left. reflexivity.
Qed.
Lemma bits_period : symbol_period [bits_clock] = Ok (Some 4).
Proof.
  unfold symbol_period. assert (E : concat (map CdrModel.diff [bits_clock]) = [4; 4; 4]) by (unfold bits_clock; cbn; f_equal; [lra|f_equal; [lra|f_equal; lra]]). rewrite E.
  assert (M : CdrModel.mean [4; 4; 4] = 4) by (unfold CdrModel.mean; cbn; lra). rewrite M. cbn [filter]. assert (B : Rltb 4 (10 * 4) = true) by (apply Rltb_true; lra). rewrite B.
  destruct (usamples_spec [4; 4; 4]) as (u & U & V & _); [discriminate|]. rewrite U. do 2 f_equal. cbn [length] in V. rewrite INR_IZR_INZ in V. cbn in V. lra.
Qed.
Example C58_witness round6 fit aic new_cdr percentile cast fuel draw : exists e0 m e1,
  construct bits_wave None (Some (ListOf [(true, bits_clock)])) None 10 (Some (Some bits_config)) = Ok e0
  /\ completed round6 fit aic new_cdr percentile cast fuel draw false e0 m e1 [bits_clock] 4
  /\ c_skip_measures (e_config e0) = false /\ 101 / 100 * e_t_delta e0 / 4 <= c_level_width (e_config e0) < 1 /\ width e0 4 < 1 /\ (0 <= e_resolution e0)%Z.
Proof.
  destruct (construct bits_wave None (Some (ListOf [(true, bits_clock)])) None 10 (Some (Some bits_config))) as [e0|] eqn:C; [|discriminate].
  assert (TD : e_t_delta e0 = 1). { injection C as <-. change ((INR 27 - INR 0) / INR 27 = 1). rewrite (INR_IZR_INZ 27), (INR_IZR_INZ 0). cbn [Z.of_nat Pos.of_succ_nat Pos.succ]. lra. }
  assert (WV : waves (e_waveforms e0) = [(bits_t, bits_y)]) by (injection C as <-; reflexivity).
  assert (CF : e_config e0 = bits_config) by (injection C as <-; reflexivity). assert (CE : e_clock_edges e0 = Some [bits_clock]) by (injection C as <-; reflexivity).
  assert (MK : e_mask e0 = None) by (injection C as <-; reflexivity). assert (MC : e_converted e0 = None) by (injection C as <-; reflexivity). assert (RS : e_resolution e0 = 10%Z) by (injection C as <-; reflexivity). clear C.
  assert (WD : width e0 4 = 3 / 10) by (unfold width; rewrite CF, TD; apply Rmax_left; cbn; lra).
  assert (PP : forall p, is_period [bits_clock] p -> 0 < p). { intros p (l & [<-|[]] & k & a & b & A & B & ->). unfold bits_clock in A, B. destruct k as [|[|[|k]]]; cbn in A, B; [injection A as <-; injection B as <-; lra..|destruct k as [|k]; [discriminate|destruct k; discriminate]]. }
  set (l := Levels 0 1 (1 / 2) 0 0 false).
  assert (FL : exists l, find_levels round6 fit aic (e_config e0) (all_samples (e_waveforms e0)) false = Ok l /\ l_half l = 1 / 2) by (rewrite CF; eexists; split; [reflexivity|]; cbn; lra). clear l. destruct FL as (l & FL & LH).
  destruct (C58_finishes round6 fit aic new_cdr percentile cast fuel draw e0 l [bits_clock] 4 FL CE bits_period PP) as (syms & pds & F & EP & DE & GO);
    [rewrite TD; lra|rewrite WV; cbn; lia|rewrite WV; intros w [<-|[]]; discriminate|exact MK|exact MC|rewrite RS; lia|rewrite CF; reflexivity|rewrite CF; reflexivity|rewrite CF; cbn; lra|rewrite CF; cbn; lra|rewrite WD; lra|].
  rewrite WV, TD in F. cbn [combine] in F. inversion F as [|? sy ? sys (first & FI & (keep & SY & KP) & SE) F' X1 X2]; subst. inversion F'; subst. clear F F'. cbn [fst snd] in FI, SY, KP, SE. assert (F0 : first = 0) by (cbn in FI; congruence). subst first. clear FI.
  assert (END : end_time 1 0 28 = 27) by (unfold end_time; rewrite INR_IZR_INZ; cbn [Z.of_nat Pos.of_succ_nat Pos.succ]; lra). change (length bits_t) with 28%nat in KP. rewrite END in KP.
  assert (KT : forall b, In b bits_clock -> keep b = true) by (intros b I; apply KP; [exact I|]; unfold well_inside, bits_clock in *  ; destruct I as [<-|[<-|[<-|[<-|[]]]]]; lra).
  assert (FK : filter keep bits_clock = bits_clock) by (unfold bits_clock in *  ; cbn [filter]; rewrite !KT by (cbn; tauto); reflexivity). rewrite FK in SY. clear FK KT KP keep END.
  destruct sy as [|[b1 p1] [|[b2 p2] [|[b3 p3] [|[b4 p4] [|]]]]]; try discriminate. unfold bits_clock in SY. injection SY as -> -> -> -> .
  destruct pds as [|pd [|]]; try discriminate. cbn [map] in EP. injection EP as EP. destruct pd as [|[q1 d1] [|[q2 d2] [|[q3 d3] [|[q4 d4] [|]]]]]; try discriminate. cbn [map fst snd] in EP. injection EP as -> -> -> -> .
  cbn [concat] in DE, GO. rewrite app_nil_r in DE, GO. rewrite LH, WD in DE. rewrite CF in GO. cbn [c_level_width c_cross_width bits_config] in GO.
  inversion SE as [|? ? SE1 SE']; subst. inversion SE' as [|? ? SE2 _]; subst. inversion DE as [|? ? DE1 DE']; subst. inversion DE' as [|? ? DE2 _]; subst. cbn [fst snd] in SE1, SE2.
  destruct SE1 as (c1 & lo1 & n1 & _ & K1 & L1 & A1 & B1 & ->). destruct SE2 as (c2 & lo2 & n2 & _ & K2 & L2 & A2 & B2 & ->).
  assert (Z0 : exists k, 0 = IZR k * 1) by (exists 0%Z; lra). rewrite (K1 Z0) in *  . rewrite (K2 Z0) in *  . clear K1 K2 Z0 SE' SE DE DE'.
  destruct DE1 as (_ & D1 & _). destruct DE2 as (D2p & D2 & _). cbn [fst snd] in D1, D2p, D2.
  pose proof (level_of 8 (1/2) 8 bits_y lo1 n1 _ _ 1 ltac:(cbn; lra) ltac:(reflexivity) D1) as H1. pose proof (level_of 12 (1/2) 12 bits_y lo2 n2 _ _ 0 ltac:(cbn; lra) ltac:(reflexivity) D2) as H2. pose proof (level_of 8 (-1/2) 12 bits_y lo2 n2 _ _ 1 ltac:(cbn; lra) ltac:(reflexivity) D2p) as H2p.
  assert (C1 : cur d1 = true) by (apply H1; lra). assert (C2 : cur d2 = false) by (destruct (cur d2); [assert (1 / 2 < 0) by (apply H2; reflexivity); lra|reflexivity]). assert (P2 : prev d2 = true) by (apply H2p; lra).
  destruct GO as (m & e1 & E).
  - eapply at_ne; [right; left; reflexivity|cbn [snd]; rewrite C2; reflexivity|apply D2].
  - eapply at_ne; [left; reflexivity|cbn [snd]; exact C1|apply D1].
  - eapply at_ne; [right; left; reflexivity|cbn [snd]; rewrite C2, P2; reflexivity|]. cbn [fst]. intros N. assert (I : In (nth 10 bits_y 0) (values_in 0 (1/10) (view 4 1 0 12 bits_y lo2 n2))); [|rewrite N in I; destruct I].
    unfold values_in. apply in_map_iff. exists (1 / 2 + (0 + INR 10 * 1 - 12) / 4, nth 10 bits_y 0). split; [reflexivity|]. apply filter_In. split.
    + unfold view. apply in_map_iff. exists 10%nat. split; [reflexivity|]. apply in_seq. rewrite !INR_IZR_INZ in A2, B2. assert (G : (Z.of_nat lo2 <= 8 /\ 17 <= Z.of_nat (lo2 + n2))%Z) by (split; apply le_IZR; lra). lia.
    + cbn [fst]. rewrite INR_IZR_INZ. cbn [Z.of_nat Pos.of_succ_nat Pos.succ]. apply andb_true_iff. split; apply Rleb_true; lra.
  - exists e0, m, e1. split; [reflexivity|]. split; [exact E|]. split; [rewrite CF; reflexivity|]. split; [rewrite CF, TD; cbn; lra|]. split; [rewrite WD; lra|rewrite RS; lia].
Qed.
