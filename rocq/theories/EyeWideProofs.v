(** Lemmas about open eyes. *)
From Coq Require Import ZArith Reals Bool List Lia Lra.
Import ListNotations.
From Verif Require Import Base Num RBool DrawSpec LinesModel LinesSpec LinesProofs StatsModel MaskModel MaskProofs EyeModel EyeSpec EyeProofs EyeRProofs EyeProps UncertainProofs Pam2Model Pam2Spec Pam2Proofs Pam2Props MathModel EyeImageModel EyeRunModel EyeRunSpec EyeRunProofs EyeReportSpec EyeReportProps EyeTimesProps EyeDataSpec EyeDataProps EyeEdgesSpec EyeWideSpec.
Local Open Scope R_scope.

(** ** Where symbols come from *)
Lemma origin k period near jitter t td records sent syms ps : Forall2 (record_of k period near jitter td) records sent -> Forall2 (record_symbols t td) records syms ->
  In ps (map snd (concat syms)) -> exists record s first b n, In (record, s) (combine records sent) /\ nth_error (fst (fst record)) 0 = Some first
    /\ carries k period near td first (snd (fst record)) s /\ Rabs (b - middle period s n) <= jitter /\ seen t td first b (snd (fst record)) ps.
Proof.
  intros RO. revert syms. induction RO as [|record s records sent (CA & CL) ROS IH]; intros syms RS I; inversion RS as [|? sy ? sys R1 R2]; subst; [destruct I|].
  cbn [concat] in I. rewrite map_app in I. apply in_app_or in I. destruct I as [I|I].
  - destruct R1 as (first & F0 & (keep & U & KP) & SE). apply in_map_iff in I. destruct I as (q & <- & I). assert (IE : In (fst q) (snd record)) by (assert (X : In (fst q) (map fst sy)) by (apply in_map; exact I); rewrite U in X; apply filter_In in X; apply X).
    destruct (In_nth_error _ _ IE) as (i & NI). rewrite Forall_forall in SE. exists record, s, first, (fst q), (Z.of_nat i). split; [left; reflexivity|]. split; [exact F0|]. split; [exact (CA first F0)|]. split; [exact (CL i _ NI)|exact (SE q I)].
  - destruct (IH sys R2 I) as (r & s' & first & b & n & IN & X). exists r, s', first, b, n. split; [right; exact IN|exact X].
Qed.
Lemma in_values c w ps p : In p ps -> Rabs (fst p - c) <= w / 2 -> In (snd p) (values_in c w ps).
Proof.
  intros I A. apply Rabs_le_between in A. unfold values_in. apply in_map. apply filter_In. split; [exact I|]. apply andb_true_iff. split; apply Rleb_true; lra.
Qed.
Lemma symbol_open k t period near jitter td first y s b n ps h : 0 < t -> jitter + td / 2 + Rabs (t - period) + h * t <= near ->
  carries k period near td first y s -> Rabs (b - middle period s n) <= jitter -> seen t td first b y ps -> opening h (low_to k) (high_from k) ps.
Proof.
  intros T NEAR CA J SE c C. exists (snd s (n + c)%Z). intros p I A. pose proof (seen_shows k t period near jitter td first (2 * h) T ltac:(lra) y s b n ps c CA J SE C (2 * h) (Rle_refl _)) as F.
  rewrite Forall_forall in F. specialize (F (snd p) (in_values _ _ _ _ I ltac:(replace (2 * h / 2) with h by lra; exact A))). unfold shows in F. destruct (snd s (n + c)%Z); lra.
Qed.
Lemma symbols_open k period near jitter t td records sent syms h : 0 < t -> jitter + td / 2 + Rabs (t - period) + h * t <= near ->
  Forall2 (record_of k period near jitter td) records sent -> Forall2 (record_symbols t td) records syms -> Forall (opening h (low_to k) (high_from k)) (map snd (concat syms)).
Proof.
  intros T NEAR RO RS. apply Forall_forall. intros ps I. destruct (origin _ _ _ _ _ _ _ _ _ _ RO RS I) as (r & s & first & b & n & _ & _ & CA & J & SE). exact (symbol_open _ _ _ _ _ _ _ _ _ _ _ _ _ T NEAR CA J SE).
Qed.

(** ** Crossing times *)
Lemma scaled_in low amp ps p : In p (scaled low amp ps) -> exists q, In q ps /\ fst p = fst q /\ snd p = (snd q - low) / amp.
Proof. unfold scaled. intros I. apply in_map_iff in I. destruct I as (q & <- & I). exists q. repeat split. exact I. Qed.
Lemma times_in level height ps x : In x (times_at level height ps) -> exists p, In p ps /\ fst p = x /\ level - height / 2 <= snd p <= level + height / 2.
Proof.
  unfold times_at. intros I. apply in_map_iff in I. destruct I as (p & <- & I). apply filter_In in I. destruct I as (I & F). apply andb_true_iff in F. destruct F as (F1 & F2). apply Rleb_true in F1, F2. exists p. repeat split; assumption.
Qed.
Lemma level_value amp low v level height : 0 < amp -> level - height / 2 <= (v - low) / amp <= level + height / 2 -> low + amp * level - amp * height / 2 <= v <= low + amp * level + amp * height / 2.
Proof. intros A (L & U). assert (E : v = low + amp * ((v - low) / amp)) by (field; lra). set (q := (v - low) / amp) in *  . clearbody q. rewrite E. split; nra. Qed.
(** No sample near a level in the opening is near the middle of a symbol. *)
Lemma clear_times h lo hi low amp level height ps x c : 0 < amp -> opening h lo hi ps -> clear_of lo hi (amp * height) (low + amp * level) -> In x (times_at level height (scaled low amp ps)) ->
  (c = -1 \/ c = 0 \/ c = 1)%Z -> h < Rabs (x - (1 / 2 + IZR c)).
Proof.
  intros A O (C1 & C2) I C. destruct (times_in _ _ _ _ I) as (p & IP & <- & B). destruct (scaled_in _ _ _ _ IP) as (q & IQ & E1 & E2). rewrite E2 in B. apply (level_value _ _ _ _ _ A) in B. rewrite E1.
  destruct (Rlt_le_dec h (Rabs (fst q - (1 / 2 + IZR c)))) as [L|L]; [exact L|]. destruct (O c C) as (bit & OB). specialize (OB q IQ L). destruct bit; lra.
Qed.
Lemma outside h x c : h < Rabs (x - c) -> x < c - h \/ c + h < x.
Proof. unfold Rabs. destruct (Rcase_abs (x - c)); lra. Qed.
Lemma left_clear h lo hi low amp level height ps x : 0 < amp -> opening h lo hi ps -> clear_of lo hi (amp * height) (low + amp * level) ->
  In x (left_times level height (scaled low amp ps)) -> Rabs x < 1 / 2 - h.
Proof.
  intros A O C I. unfold left_times in I. apply filter_In in I. destruct I as (I & F). apply andb_true_iff in F. destruct F as (F1 & F2). apply Rleb_true in F1, F2.
  pose proof (outside _ _ _ (clear_times _ _ _ _ _ _ _ _ _ 0 A O C I ltac:(lia))) as Q0. pose proof (outside _ _ _ (clear_times _ _ _ _ _ _ _ _ _ (-1) A O C I ltac:(lia))) as Q1. apply Rabs_def1; lra.
Qed.
Lemma right_clear h lo hi low amp level height ps x : 0 < amp -> opening h lo hi ps -> clear_of lo hi (amp * height) (low + amp * level) ->
  In x (right_times level height (scaled low amp ps)) -> Rabs (x - 1) < 1 / 2 - h.
Proof.
  intros A O C I. unfold right_times in I. apply filter_In in I. destruct I as (I & F). apply andb_true_iff in F. destruct F as (F1 & F2). apply Rltb_true in F1. apply Rleb_true in F2.
  pose proof (outside _ _ _ (clear_times _ _ _ _ _ _ _ _ _ 0 A O C I ltac:(lia))) as Q0. pose proof (outside _ _ _ (clear_times _ _ _ _ _ _ _ _ _ 1 A O C I ltac:(lia))) as Q1. apply Rabs_def1; lra.
Qed.
(** Statistics of times near a point. *)
Lemma near_stats t c r l u : 0 < t -> (forall x, In x l -> Rabs (x - c) < r) -> usamples (map (fun x => x * t) l) = Some u -> Rabs (value u - c * t) < r * t /\ 0 <= StatsModel.stddev u < r * t.
Proof.
  intros T B E. assert (N : map (fun x => x * t) l <> []) by (intros Q; rewrite Q in E; discriminate).
  destruct (ptp_spec _ N) as (lo & hi & _ & IL & IH & BD). assert (G : forall z, In z (map (fun x => x * t) l) -> c * t - r * t < z < c * t + r * t).
  { intros z I. apply in_map_iff in I. destruct I as (x & <- & I). specialize (B x I). apply Rabs_def2 in B. nra. }
  pose proof (G _ IL) as GL. pose proof (G _ IH) as GH. destruct (usamples_spec _ N) as (u' & E' & _ & M & P & _). assert (u' = u) as -> by congruence. specialize (M lo hi BD). pose proof (stddev_range _ _ _ _ E BD).
  split; [apply Rabs_def1; lra|lra].
Qed.
Lemma near_range t c r l x : 0 < t -> (forall x, In x l -> Rabs (x - c) < r) -> ptp (map (fun x => x * t) l) = Some x -> 0 <= x < 2 * (r * t).
Proof.
  intros T B E. assert (N : map (fun x => x * t) l <> []) by (intros Q; rewrite Q in E; discriminate).
  destruct (ptp_spec _ N) as (lo & hi & E' & IL & IH & BD). assert (x = hi - lo) by congruence. pose proof (BD _ IL). 
  apply in_map_iff in IL, IH. destruct IL as (a & <- & IL). destruct IH as (b & <- & IH). pose proof (B a IL) as B1. pose proof (B b IH) as B2. apply Rabs_def2 in B1, B2. nra.
Qed.

(** ** Masks *)
Lemma loop_kept (hitting : nat -> result bool) n fuel i j k : margin_loop fuel hitting n i = Ok j -> (i <= k)%nat -> hitting k = Ok false -> (j <= k)%nat.
Proof.
  intros E IK H. destruct (margin_loop_inv _ _ _ _ _ E) as (_ & B & _). destruct (le_lt_dec j k) as [L|L]; [exact L|]. specialize (B k ltac:(lia)). congruence.
Qed.
Lemma step_kept (t0 y : list R) w (t : R) paths n st s st' k p : mask_step t0 y w t paths n st s = Ok st' -> (snd (fst (fst st)) <= k)%nat -> nth_error paths k = Some p ->
  is_hitting_np (fst (window_fb t0 y w t s)) (snd (window_fb t0 y w t s)) p = Ok false -> (snd (fst (fst st')) <= k)%nat.
Proof.
  destruct st as [[[i im] offs] hs]. unfold mask_step. destruct (window_fb t0 y w t s) as [wt wy]. cbn [fst snd]. intros E L N H. apply bind_ok in E. destruct E as (im' & ML & E).
  assert (K : (im' <= k)%nat) by (apply (loop_kept _ _ _ _ _ _ ML L); unfold get; rewrite N; exact H).
  destruct (Nat.ltb im' (n / 2)); [injection E as <-; exact K|]. apply bind_ok in E. destruct E as (m0 & _ & E). apply bind_ok in E. destruct E as (hh & _ & E). destruct hh; injection E as <-; exact K.
Qed.
Lemma sample_kept trunc y symbols (td t yz ua : R) paths o w t0 k p : sample_mask trunc y symbols td t yz ua paths margins = Ok o -> get_i_width trunc t td = Ok w -> window_axis w t td = Ok t0 ->
  (k <= 2000)%nat -> nth_error paths k = Some p -> (forall v, In v (windows t0 y w t yz ua symbols) -> is_hitting_np (fst v) (snd v) p = Ok false) -> IZR (1000 - Z.of_nat k) / 1000 <= margin o.
Proof.
  unfold sample_mask. intros E W T0 K N H. rewrite W in E. cbn [bind] in E. rewrite T0 in E. cbn [bind] in E. apply bind_ok in E. destruct E as (st & FO & E).
  pose proof margins_length as ML. pose proof margins_nth as MN. rewrite ML in FO, E. 
  assert (G : forall syms st st', (forall v, In v (windows t0 y w t yz ua syms) -> is_hitting_np (fst v) (snd v) p = Ok false) -> foldM (mask_step t0 (normalise_y y yz ua) w t paths 2001) st syms = Ok st' -> (snd (fst (fst st)) <= k)%nat -> (snd (fst (fst st')) <= k)%nat).
  { clear -N. induction syms as [|s syms IH]; intros st st' H E L; [injection E as <-; exact L|]. cbn [foldM] in E. apply bind_ok in E. destruct E as (st1 & E1 & E).
    apply (IH st1 st'); [intros v V; apply H; right; exact V|exact E|]. exact (step_kept _ _ _ _ _ _ _ _ _ _ _ E1 L N (H _ (or_introl eq_refl))). }
  specialize (G symbols _ st H FO ltac:(cbn [fst snd]; lia)). destruct st as [[[i im] offs] hs]. cbn [fst snd] in G. unfold getz in E.
  destruct (Z.leb_spec 0 (Z.min (Z.of_nat 2001 - 1) (Z.of_nat im))) as [Q|Q]; [|lia]. unfold get in E. replace (Z.to_nat (Z.min (Z.of_nat 2001 - 1) (Z.of_nat im))) with (Nat.min 2000 im) in E by lia.
  rewrite MN in E by lia. cbn [bind] in E. apply (f_equal (fun r => match r with Ok x => margin x | Err _ => 0 end)) in E. cbv beta iota in E. cbn [margin] in E. rewrite <- E. apply Rmult_le_compat_r; [lra|]. apply IZR_le. lia.
Qed.

(** ** Geometry *)
Lemma adjacent_map {X Y} (f : X -> Y) l a b : In (a, b) (LinesSpec.adjacent (map f l)) -> exists x z, In (x, z) (LinesSpec.adjacent l) /\ a = f x /\ b = f z.
Proof.
  induction l as [|x [|z l] IH]; [intros []..|]. cbn [map LinesSpec.adjacent]. intros [E|I]; [injection E as <- <-; exists x, z; split; [left; reflexivity|split; reflexivity]|].
  destruct (IH I) as (x' & z' & J & A & B). exists x', z'. split; [right; exact J|split; assumption].
Qed.
Lemma adjacent_in {X} (l : list X) a b : In (a, b) (LinesSpec.adjacent l) -> In a l /\ In b l.
Proof.
  induction l as [|x [|z l] IH]; [intros []..|]. cbn [LinesSpec.adjacent]. intros [E|I]; [injection E as <- <-; split; [left; reflexivity|right; left; reflexivity]|]. destruct (IH I) as (A & B). split; right; assumption.
Qed.
Lemma adjacent_seq n lo i j : In (i, j) (LinesSpec.adjacent (seq lo n)) -> j = S i.
Proof.
  revert lo. induction n as [|n IH]; intros lo I; [destruct I|]. destruct n as [|n]; [destruct I|]. cbn [seq LinesSpec.adjacent] in I. destruct I as [E|I]; [injection E as <- <-; reflexivity|]. exact (IH (S lo) I).
Qed.
Lemma view_step t td first b y lo n p q : 0 < t -> In (p, q) (LinesSpec.adjacent (view t td first b y lo n)) -> fst q = fst p + td / t.
Proof.
  intros T I. unfold view in I. apply adjacent_map in I. destruct I as (i & j & I & -> & ->). apply adjacent_seq in I. subst j. cbn [fst]. rewrite S_INR. field. lra.
Qed.
Lemma segment_convex (P : R * R -> Prop) a b p : on_segment a b p -> (forall s, 0 <= s <= 1 -> P (fst a + s * (fst b - fst a), snd a + s * (snd b - snd a))) -> P p.
Proof. intros (s & S & E1 & E2) H. rewrite (surjective_pairing p), E1, E2. apply H. exact S. Qed.
Lemma combination s x z lo : 0 <= s <= 1 -> lo <= x -> lo <= z -> lo <= x + s * (z - x).
Proof. intros S X Z. nra. Qed.
Lemma combination' s x z hi : 0 <= s <= 1 -> x <= hi -> z <= hi -> x + s * (z - x) <= hi.
Proof. intros S X Z. nra. Qed.
Lemma combination_lt s x z lo : 0 <= s <= 1 -> lo < x -> lo < z -> lo < x + s * (z - x).
Proof. intros S X Z. destruct (Rle_lt_dec x z) as [L|L]; nra. Qed.
Lemma combination_lt' s x z hi : 0 <= s <= 1 -> x < hi -> z < hi -> x + s * (z - x) < hi.
Proof. intros S X Z. destruct (Rle_lt_dec x z) as [L|L]; nra. Qed.
(** Between adjacent samples near the middle, the line stays out of the opening. *)
Lemma line_clear t td first b y lo n h l0 h0 low amp p q x : 0 < t -> 0 < td -> 0 < amp -> opening h l0 h0 (view t td first b y lo n) ->
  In (p, q) (LinesSpec.adjacent (scaled low amp (view t td first b y lo n))) -> on_segment p q x -> Rabs (fst x - 1 / 2) <= h - td / t -> ~ l0 < low + amp * snd x < h0.
Proof.
  intros T D A O I S X B. unfold scaled in I. apply adjacent_map in I. destruct I as (p' & q' & I & -> & ->). pose proof (view_step _ _ _ _ _ _ _ _ _ T I) as ST. destruct (adjacent_in _ _ _ I) as (I1 & I2).
  assert (DT : 0 < td / t) by (apply Rdiv_lt_0_compat; assumption). destruct S as (s & S & E1 & E2). cbn [fst snd] in E1, E2. apply Rabs_le_between in X.
  destruct (O 0%Z ltac:(lia)) as (bit & OB). assert (B1 := OB p' I1). assert (B2 := OB q' I2). cbn [IZR] in B1, B2.
  assert (V : low + amp * snd x = snd p' + s * (snd q' - snd p')) by (rewrite E2; field; lra). rewrite V in B.
  assert (N1 : Rabs (fst p' - (1 / 2 + 0)) <= h) by (apply Rabs_le; nra). assert (N2 : Rabs (fst q' - (1 / 2 + 0)) <= h) by (apply Rabs_le; nra). specialize (B1 N1). specialize (B2 N2).
  destruct bit; [pose proof (combination s _ _ _ S B1 B2)|pose proof (combination' s _ _ _ S B1 B2)]; lra.
Qed.
Lemma line_range low amp bottom top ps p q x : 0 < amp -> (forall r, In r ps -> bottom <= snd r <= top) -> In (p, q) (LinesSpec.adjacent (scaled low amp ps)) -> on_segment p q x -> bottom <= low + amp * snd x <= top.
Proof.
  intros A BD I (s & S & E1 & E2). unfold scaled in I. apply adjacent_map in I. destruct I as (p' & q' & I & -> & ->). destruct (adjacent_in _ _ _ I) as (I1 & I2). cbn [fst snd] in E1, E2.
  assert (V : low + amp * snd x = snd p' + s * (snd q' - snd p')) by (rewrite E2; field; lra). rewrite V. pose proof (BD _ I1). pose proof (BD _ I2). split; [apply combination|apply combination']; lra.
Qed.
Lemma outline_clear h l0 h0 bottom top low amp outline c d x : 0 < amp -> fits_in h l0 h0 bottom top low amp outline -> In (c, d) (LinesSpec.adjacent outline) -> on_segment c d x ->
  (Rabs (fst x - 1 / 2) <= h /\ l0 < low + amp * snd x < h0) \/ top < low + amp * snd x \/ low + amp * snd x < bottom.
Proof.
  intros A F I (s & S & E1 & E2). destruct (adjacent_in _ _ _ I) as (I1 & I2). assert (V : low + amp * snd x = (low + amp * snd c) + s * ((low + amp * snd d) - (low + amp * snd c))) by (rewrite E2; ring).
  unfold fits_in in F. rewrite !Forall_forall in F. destruct F as [F|[F|F]]; pose proof (F _ I1) as F1; pose proof (F _ I2) as F2.
  - left. destruct F1 as (X1 & L1 & H1). destruct F2 as (X2 & L2 & H2). apply Rabs_le_between in X1, X2. rewrite V, E1. split; [|split; [apply combination_lt|apply combination_lt']; assumption]. 
    apply Rabs_le. split; [pose proof (combination s (fst c) (fst d) (1 / 2 - h) S ltac:(lra) ltac:(lra))|pose proof (combination' s (fst c) (fst d) (1 / 2 + h) S ltac:(lra) ltac:(lra))]; lra.
  - right; left. rewrite V. apply combination_lt; assumption.
  - right; right. rewrite V. apply combination_lt'; assumption.
Qed.
Lemma mapM_at {X Y} (f : X -> result Y) l : forall ys k x y, mapM f l = Ok ys -> nth_error l k = Some x -> f x = Ok y -> nth_error ys k = Some y.
Proof.
  induction l as [|a l IH]; intros ys k x y MP N F; [destruct k; discriminate|]. cbn [mapM] in MP. apply bind_ok in MP. destruct MP as (b & E1 & MP). apply bind_ok in MP. destruct MP as (bs & E2 & MP). assert (ys = b :: bs) as -> by congruence.
  destruct k as [|k]; cbn [nth_error] in N |- * ; [congruence|]. exact (IH bs k x y E2 N F).
Qed.
Lemma eye_kept trunc mk mc (td t yz ua : R) ws offs hs mg cnt w t0 k p : eye_sample_mask trunc (Some mk) td t yz ua ws = Ok (offs, hs, mg, cnt) -> mask_convert mk ua t = Ok mc ->
  get_i_width trunc t td = Ok w -> window_axis w t td = Ok t0 -> (k <= 2000)%nat -> mask_adjusted mc (IZR (1000 - Z.of_nat k) / 1000) = Ok p ->
  (forall wv v, In wv ws -> In v (windows t0 (fst wv) w t yz ua (snd wv)) -> is_hitting_np (fst v) (snd v) p = Ok false) -> IZR (1000 - Z.of_nat k) / 1000 <= mg.
Proof.
  unfold eye_sample_mask. intros E MC W T0 K AD H. rewrite MC in E. cbn [bind] in E. apply bind_ok in E. destruct E as (paths & MP & E).
  pose proof (mapM_at _ _ _ _ _ _ MP (margins_nth k ltac:(lia)) AD) as N.
  assert (F1 : IZR (1000 - Z.of_nat k) / 1000 <= 1). { assert (IZR (1000 - Z.of_nat k) <= IZR 1000) by (apply IZR_le; lia). lra. }
  assert (G : forall ws st st', (forall wv v, In wv ws -> In v (windows t0 (fst wv) w t yz ua (snd wv)) -> is_hitting_np (fst v) (snd v) p = Ok false) ->
    foldM (fun st (w : list R * list (R * Z)) => let '(offs, hs, mg, cnt) := st in
        bind (sample_mask trunc (fst w) (snd w) td t yz ua paths margins) (fun o => Ok (offs ++ [offenders o], hs ++ mask_hits o, if (margin o <. mg)%num then margin o else mg, (cnt + length (offenders o))%nat))) st ws = Ok st' ->
    IZR (1000 - Z.of_nat k) / 1000 <= snd (fst st) -> IZR (1000 - Z.of_nat k) / 1000 <= snd (fst st')).
  { clear H E ws offs hs mg cnt. induction ws as [|wv ws IH]; intros [[[offs' hs'] mg'] cnt'] st' H E L; [assert (st' = (offs', hs', mg', cnt')) as -> by (cbn [foldM] in E; congruence); exact L|].
    cbn [foldM] in E. apply bind_ok in E. destruct E as (st1 & E1 & E). apply bind_ok in E1. destruct E1 as (o & SM & E1). 
    apply (IH st1 st'); [intros wv' v I; apply H; right; exact I|exact E|]. assert (st1 = (offs' ++ [offenders o], hs' ++ mask_hits o, if (margin o <. mg')%num then margin o else mg', (cnt' + length (offenders o))%nat)) as -> by congruence. cbn [fst snd] in L |- * .
    pose proof (sample_kept _ _ _ _ _ _ _ _ _ _ _ _ _ SM W T0 K N (fun v V => H wv v (or_introl eq_refl) V)) as Q. destruct (_ <. _)%num; assumption. }
  exact (G ws _ (offs, hs, mg, cnt) H E F1).
Qed.

(** ** Edges *)
Lemma between_in {X} i j (l : list X) p : In p (between i j l) -> exists a, (i <= a <= j)%nat /\ nth_error l a = Some p.
Proof.
  unfold between. intros I. destruct (In_nth_error _ _ I) as (a & N). assert (A : (a < S j - i)%nat). { assert (a < length (firstn (S j - i) (skipn i l)))%nat by (apply nth_error_Some; congruence). rewrite firstn_length in H. lia. }
  exists (i + a)%nat. split; [lia|]. rewrite <- N. clear N I. revert l. induction i as [|i IH]; intros l; cbn [Nat.add skipn].
  - replace (S j - 0)%nat with (S j) in *   by lia. revert a A l. generalize (S j). induction n as [|n IHn]; intros a A l; [lia|]. destruct l as [|x l]; [destruct a; reflexivity|]. destruct a as [|a]; [reflexivity|]. cbn [firstn nth_error]. apply IHn. lia.
  - destruct l as [|x l]; [rewrite firstn_nil; destruct a; reflexivity|]. cbn [nth_error]. 
    assert (FN : forall m a (l : list X), (a < m)%nat -> nth_error l a = nth_error (firstn m l) a). { induction m as [|m IHm]; intros a' l' L; [lia|]. destruct l' as [|z l']; [destruct a'; reflexivity|]. destruct a' as [|a']; [reflexivity|]. cbn [firstn nth_error]. apply IHm. lia. }
    rewrite <- FN by exact A. clear. revert l. induction i as [|i IH]; intros l; [reflexivity|]. destruct l as [|z l]; [destruct a; reflexivity|]. exact (IH l).
Qed.
Lemma view_nth t td first b y lo n a : (a < n)%nat -> nth_error (view t td first b y lo n) a = Some (1 / 2 + (first + INR (lo + a) * td - b) / t, nth (lo + a) y 0).
Proof. intros A. unfold view. rewrite nth_error_map. rewrite (nth_error_nth' _ 0%nat) by (rewrite seq_length; exact A). rewrite seq_nth by exact A. reflexivity. Qed.
Lemma view_nth_inv t td first b y lo n a p : nth_error (view t td first b y lo n) a = Some p -> (a < n)%nat /\ p = (1 / 2 + (first + INR (lo + a) * td - b) / t, nth (lo + a) y 0).
Proof. intros E. assert (A : (a < n)%nat) by (assert (a < length (view t td first b y lo n))%nat by (apply nth_error_Some; congruence); unfold view in H; rewrite map_length, seq_length in H; exact H). split; [exact A|]. rewrite (view_nth _ _ _ _ _ _ _ _ A) in E. congruence. Qed.
Section Edge.
Variable k : bands.
Variables t period near jitter td first b : R.
Variable y : list R.
Variable s : signal.
Variable n : Z.
Variable d : bool.
Variables h low amp : R.
Variable w : nat.
Hypothesis T : 0 < t.
Hypothesis D : 0 < td.
Hypothesis A : 0 < amp.
Hypothesis NP : near <= period / 2.
Hypothesis HH : 3 * td <= h * t.

Hypothesis NEAR : jitter + td / 2 + Rabs (t - period) + h * t <= near.
Hypothesis GAP : low_to k < high_from k.
Hypothesis CA : carries k period near td first y s.
Hypothesis MO : EyeEdgesSpec.monotone k period near td first y s.
Hypothesis J : Rabs (b - middle period s n) <= jitter.
Hypothesis PV : snd s (n - 1)%Z = negb d.
Hypothesis CU : snd s n = d.
Hypothesis W : t / td + 3 / 2 < INR w <= t / td + 5 / 2.
Definition side (bit : bool) (v : R) : Prop := if bit then high_from k <= v else v <= low_to k.
Let time (j : nat) : R := first + INR j * td.
Let mid (c : Z) : R := middle period s (n + c).
Lemma shown bit v : shows k bit v -> side bit v.
Proof. unfold shows, side. destruct bit; lra. Qed.
Lemma mid_step c : mid c = middle period s n + IZR c * period.
Proof. unfold mid, middle. rewrite plus_IZR. ring. Qed.
(** Which bit a sample shows, by its time. *)
Lemma near_side j c : (j < length y)%nat -> Rabs (time j - mid c) <= near -> side (snd s (n + c)%Z) (nth j y 0).
Proof. intros L N. apply shown, CA; assumption. Qed.
Lemma place j c : mid c - near <= time j <= mid (c + 1) + near -> Rabs (time j - mid c) <= near \/ Rabs (time j - mid (c + 1)) <= near \/ mid c + near < time j < mid (c + 1) - near.
Proof.
  intros (L & U). destruct (Rle_lt_dec (time j) (mid c + near)) as [Q|Q]; [left; apply Rabs_le; lra|]. destruct (Rle_lt_dec (mid (c + 1) - near) (time j)) as [Q'|Q']; [right; left; apply Rabs_le; lra|right; right; split; assumption].
Qed.
Lemma mono j j' c : (j < j')%nat -> (j' < length y)%nat -> mid c + near < time j < mid (c + 1) - near -> mid c + near < time j' < mid (c + 1) - near -> snd s (n + c)%Z <> snd s (n + (c + 1))%Z ->
  if snd s (n + (c + 1))%Z then nth j y 0 <= nth j' y 0 else nth j' y 0 <= nth j y 0.
Proof.
  intros L L' B B' NE. destruct MO as (_ & M). unfold mid in B, B'. refine (M j j' (n + (c + 1))%Z _ _ (nth_error_nth' y 0 _) (nth_error_nth' y 0 _) L _ _ _); try lia;
    replace (n + (c + 1) - 1)%Z with (n + c)%Z by lia; assumption.
Qed.
Lemma flat j c : (j < length y)%nat -> mid c + near < time j < mid (c + 1) - near -> snd s (n + c)%Z = snd s (n + (c + 1))%Z -> side (snd s (n + c)%Z) (nth j y 0).
Proof.
  intros L B E. destruct MO as (M & _). rewrite E. apply shown. unfold mid in B. refine (M j (n + (c + 1))%Z _ (nth_error_nth' y 0 L) _ _); replace (n + (c + 1) - 1)%Z with (n + c)%Z by lia; assumption.
Qed.
Lemma inner v bit : low_to k < v < high_from k -> ~ side bit v.
Proof. unfold side. destruct bit; lra. Qed.
Variables b' : R.
Variables lo : nat.
Hypothesis B : Rabs (b' - b) <= td / 2.
Hypothesis LY : (lo + (2 * w + 1) <= length y)%nat.
Hypothesis S0 : first + INR lo * td <= b' - t.
Hypothesis S1 : b' + t <= first + (INR (lo + (2 * w + 1)) - 1) * td.
Lemma place_w : b' + t <= time lo + 2 * (INR w * td) /\ time lo <= b' - t /\ INR w * td <= t + 5 / 2 * td /\ t + 3 / 2 * td <= INR w * td.
Proof.
  unfold time. split; [|split; [exact S0|]].
  - rewrite !plus_INR, mult_INR in S1. cbn [INR] in S1. lra.
  - assert (E : t = t / td * td) by (field; lra). set (q := t / td) in *  . clearbody q. split; rewrite E; nra.
Qed.
Lemma time_add a c : time (a + c) = time a + INR c * td.
Proof. unfold time. rewrite plus_INR. ring. Qed.
Lemma slacks : 2 * near <= period /\ 7 * td <= period /\ 6 * td <= t /\ Rabs (t - period) + jitter + 7 / 2 * td <= near /\ t <= period + Rabs (t - period) /\ period <= t + Rabs (t - period) /\ 0 <= jitter /\ 0 <= Rabs (t - period).
Proof.
  pose proof (Rabs_pos (t - period)) as P0. pose proof (Rabs_pos (b - middle period s n)) as P1. pose proof (Rle_abs (t - period)) as Q1. pose proof (Rle_abs (- (t - period))) as Q2. rewrite Rabs_Ropp in Q2.
  assert (h * t <= t / 2) by nra. repeat split; lra.
Qed.
(** The sample two after the first is near the middle of the symbol before, sample
    number [w] near the middle of the symbol. *)
Lemma second : (2 <= w)%nat /\ side (negb d) (nth (lo + 2) y 0) /\ side d (nth (lo + w) y 0).
Proof.
  destruct place_w as (P1 & P2 & P3 & P4). destruct slacks as (Q1 & Q2 & Q3 & Q4 & Q5 & Q6 & Q7 & Q8). apply Rabs_le_between in B, J. 
  assert (W2 : (2 <= w)%nat). { destruct (le_lt_dec 2 w) as [L|L]; [exact L|]. assert (INR w <= 1) by (apply (le_INR w 1); lia). assert (INR w * td <= 1 * td) by (apply Rmult_le_compat_r; lra). lra. }
  split; [exact W2|]. pose proof (mid_step (-1)) as M1. pose proof (mid_step 0) as M0. split.
  - rewrite <- PV. change (n - 1)%Z with (n + -1)%Z. apply near_side; [lia|]. apply Rabs_le. rewrite time_add, M1. cbn [INR IZR IPR IPR_2]. unfold INR. lra.
  - rewrite <- CU. replace (snd s n) with (snd s (n + 0)%Z) by (f_equal; lia). apply near_side; [lia|]. apply Rabs_le. rewrite time_add, M0. lra.
Qed.
Lemma edge_time i j a : (i <= a <= j)%nat -> (j <= (2 * w + 1) / 4 + w)%nat -> side (negb d) (nth (lo + i) y 0) -> side d (nth (lo + j) y 0) -> low_to k < nth (lo + a) y 0 < high_from k ->
  Rabs (1 / 2 + (time (lo + a) - b') / t) < 1 / 2 - h.
Proof.
  intros (IA & AJ) JW SI SJ V. destruct place_w as (P1 & P2 & P3 & P4). destruct slacks as (Q1 & Q2 & Q3 & Q4 & Q5 & Q6 & Q7 & Q8). pose proof B as B0. pose proof J as J0. apply Rabs_le_between in B0, J0.
  assert (Z2 : mid (-2) - near <= time lo) by (rewrite mid_step; lra).
  assert (UP : INR ((2 * w + 1) / 4 + w) <= 3 / 2 * INR w + 1 / 4).
  { rewrite plus_INR. assert (INR ((2 * w + 1) / 4) * 4 <= 2 * INR w + 1); [|lra]. replace (2 * INR w + 1) with (INR (2 * w + 1)) by (rewrite plus_INR, mult_INR; cbn [INR]; lra). replace (INR ((2 * w + 1) / 4) * 4) with (INR (4 * ((2 * w + 1) / 4))) by (rewrite mult_INR; cbn [INR]; lra). apply le_INR. apply Nat.mul_div_le. lia. }
  assert (Z1 : forall c, (c <= j)%nat -> time lo <= time (lo + c) <= mid 1 + near).
  { intros c C. rewrite time_add, mid_step. pose proof (pos_INR c). assert (CW : INR c <= 3 / 2 * INR w + 1 / 4) by (apply (Rle_trans _ (INR ((2 * w + 1) / 4 + w))); [apply le_INR; lia|exact UP]). assert (INR c * td <= (3 / 2 * INR w + 1 / 4) * td) by (apply Rmult_le_compat_r; lra). assert (0 <= INR c * td) by (apply Rmult_le_pos; lra). lra. }
  assert (JL : (lo + j < length y)%nat). { assert ((2 * w + 1) / 4 <= w)%nat; [|lia]. apply (Nat.le_trans _ ((4 * w) / 4)); [apply Nat.div_le_mono; [lia|]|rewrite Nat.mul_comm, Nat.div_mul; lia]. assert (1 <= w)%nat by (destruct second as (X & _); lia). lia. }
  assert (TI : forall c c', (c <= c')%nat -> time (lo + c) <= time (lo + c')) by (intros c c' C; rewrite !time_add; apply le_INR in C; assert (INR c * td <= INR c' * td) by (apply Rmult_le_compat_r; lra); lra).
  pose proof (Z1 a AJ) as ZA. pose proof (Z1 i ltac:(lia)) as ZI. pose proof (Z1 j ltac:(lia)) as ZJ. pose proof (inner _ true V) as V1. pose proof (inner _ false V) as V0.
  assert (VB : forall bit, ~ side bit (nth (lo + a) y 0)) by (intros bit; apply inner; exact V). clear V1 V0.
  assert (NA : (lo + a < length y)%nat) by lia. assert (AI : i <> a) by (intros ->; exact (VB _ SI)). assert (AJ' : a <> j) by (intros ->; exact (VB _ SJ)).
  assert (OPP : forall bit v, side bit v -> side (negb bit) v -> False) by (intros bit v; unfold side; destruct bit; cbn; lra).
  assert (MS := mid_step). pose proof (MS (-2)%Z) as M2. pose proof (MS (-1)%Z) as M1. pose proof (MS 0%Z) as M0. pose proof (MS 1%Z) as M3.
  destruct (Rle_lt_dec (time (lo + a)) (mid (-1) + near)) as [L1|L1].
  { exfalso. destruct (place (lo + a) (-2) ltac:(change (-2 + 1)%Z with (-1)%Z; lra)) as [N|[N|BT]]; [exact (VB _ (near_side _ _ NA N))|exact (VB _ (near_side _ _ NA N))|].
    destruct (bool_dec (snd s (n + -2)%Z) (snd s (n + (-2 + 1))%Z)) as [E|E]; [exact (VB _ (flat _ _ NA BT E))|].
    assert (BI : snd s (n + (-2 + 1))%Z = negb d) by (rewrite <- PV; f_equal; lia).
    destruct (place (lo + i) (-2) ltac:(change (-2 + 1)%Z with (-1)%Z; pose proof (TI i a IA); lra)) as [N|[N|BT']].
    - pose proof (near_side (lo + i) _ ltac:(lia) N) as X. assert (EB : snd s (n + -2)%Z = d) by (rewrite BI in E; destruct (snd s (n + -2)%Z), d; cbn in E; congruence). rewrite EB in X. exact (OPP _ _ X SI).
    - pose proof (TI i a IA). apply Rabs_le_between in N. lra.
    - pose proof (mono (lo + i) (lo + a) (-2) ltac:(lia) NA BT' BT E) as X. rewrite BI in X. pose proof (VB (negb d)) as Y. unfold side in SI, Y. destruct d; cbn [negb] in X, SI, Y; lra. }
  destruct (Rle_lt_dec (mid 0 - near) (time (lo + a))) as [L2|L2].
  { exfalso. destruct (place (lo + a) 0 ltac:(change (0 + 1)%Z with 1%Z; lra)) as [N|[N|BT]]; [exact (VB _ (near_side _ _ NA N))|exact (VB _ (near_side _ _ NA N))|].
    destruct (bool_dec (snd s (n + 0)%Z) (snd s (n + (0 + 1))%Z)) as [E|E]; [exact (VB _ (flat _ _ NA BT E))|].
    assert (BI : snd s (n + 0)%Z = d) by (rewrite <- CU; f_equal; lia). assert (BN : snd s (n + (0 + 1))%Z = negb d) by (rewrite BI in E; destruct (snd s (n + (0 + 1))%Z), d; cbn in E |- * ; congruence).
    destruct (place (lo + j) 0 ltac:(change (0 + 1)%Z with 1%Z; pose proof (TI a j AJ); lra)) as [N|[N|BT']].
    - pose proof (TI a j AJ). apply Rabs_le_between in N. lra.
    - pose proof (near_side _ _ JL N) as X. rewrite BN in X. exact (OPP _ _ SJ X).
    - pose proof (mono (lo + a) (lo + j) 0 ltac:(lia) JL BT BT' E) as X. rewrite BN in X. pose proof (VB d) as Y. unfold side in SJ, Y. destruct d; cbn [negb] in X; lra. }
  set (u := time (lo + a) - b') in *  . assert (U1 : u < - (h * t)) by (unfold u; lra). assert (U2 : - t + h * t < u) by (unfold u; lra). assert (E : u = u / t * t) by (field; lra). set (q := u / t) in *  . clearbody q. apply Rabs_def1; nra.
Qed.
End Edge.
Lemma scaled_nth low amp ps a p : nth_error (scaled low amp ps) a = Some p -> exists q, nth_error ps a = Some q /\ p = (fst q, (snd q - low) / amp).
Proof. unfold scaled. rewrite nth_error_map. destruct (nth_error ps a) as [q|]; [|discriminate]. cbn [option_map]. intros E. exists q. split; [reflexivity|congruence]. Qed.
Lemma scaled_le low amp x z : 0 < amp -> (x - low) / amp <= (z - low) / amp -> x <= z.
Proof. intros A L. apply (Rmult_le_compat_r amp) in L; [|lra]. unfold Rdiv in L. rewrite !Rmult_assoc, Rinv_l in L by lra. lra. Qed.
Lemma edge_clear k t period near jitter td first y s b n ps h low amp w dec part level height x : 0 < t -> 0 < td -> 0 < amp -> near <= period / 2 -> 3 * td <= h * t ->
  jitter + td / 2 + Rabs (t - period) + h * t <= near -> low_to k < high_from k -> carries k period near td first y s -> EyeEdgesSpec.monotone k period near td first y s ->
  Rabs (b - middle period s n) <= jitter -> seen t td first b y ps -> dec = pattern s n -> length ps = (2 * w + 1)%nat -> t / td + 3 / 2 < INR w <= t / td + 5 / 2 ->
  edge_of dec <> 0%Z -> swing w (edge_of dec) (scaled low amp ps) part -> clear_of (low_to k) (high_from k) (amp * height) (low + amp * level) -> In x (times_at level height part) -> Rabs x < 1 / 2 - h.
Proof.
  intros T D A NP HH NEAR GAP CA MO J (b' & lo & num & B & _ & LY & S0 & S1 & ->) -> LN W ND SW (C1 & C2) I.
  assert (NN : num = (2 * w + 1)%nat) by (unfold view in LN; rewrite map_length, seq_length in LN; exact LN). subst num.
  destruct (times_in _ _ _ _ I) as (p & IP & <- & BD). specialize (SW ND). destruct SW as (i & j & -> & SW). destruct (between_in _ _ _ _ IP) as (a & IJ & NA).
  apply scaled_nth in NA. destruct NA as (q & NA & ->). cbn [fst snd] in BD |- * . apply (level_value _ _ _ _ _ A) in BD. destruct (view_nth_inv _ _ _ _ _ _ _ _ _ NA) as (AL & ->). cbn [fst snd] in BD |- * .
  set (d := snd s n). assert (PV : snd s (n - 1)%Z = negb d). { unfold edge_of, pattern, prev, cur in ND. cbn [fst snd] in ND. unfold d. destruct (snd s (n - 1)%Z), (snd s n); cbn in ND |- * ; congruence. }
  destruct (second k t period near jitter td first b y s n d h w D NP HH NEAR CA J PV eq_refl W b' lo B LY S0 S1) as (W2 & SP & SC).
  assert (ED : edge_of (pattern s n) = if d then 1%Z else (-1)%Z) by (unfold edge_of, pattern, prev, cur; cbn [fst snd]; fold d; rewrite PV; destruct d; reflexivity). rewrite ED in SW.
  assert (DIV : ((2 * w + 1) / 4 <= w)%nat). { apply (Nat.le_trans _ ((4 * w) / 4)); [apply Nat.div_le_mono; lia|rewrite Nat.mul_comm, Nat.div_mul; lia]. }
  assert (VN : forall c, (c < 2 * w + 1)%nat -> nth_error (scaled low amp (view t td first b' y lo (2 * w + 1))) c = Some (1 / 2 + (first + INR (lo + c) * td - b') / t, (nth (lo + c) y 0 - low) / amp)).
  { intros c C. unfold scaled. rewrite nth_error_map, (view_nth _ _ _ _ _ _ _ _ C). reflexivity. }
  assert (SIDES : (j <= (2 * w + 1) / 4 + w)%nat /\ side k (negb d) (nth (lo + i) y 0) /\ side k d (nth (lo + j) y 0)).
  { destruct d; cbn [Z.eqb Pos.eqb negb] in SW, SP |- * ; destruct SW as ((I1 & p1 & N1 & X1) & (J1 & p2 & N2 & X2)); (split; [lia|]);
      specialize (X1 2%nat _ ltac:(lia) (VN 2%nat ltac:(lia))); specialize (X2 w _ ltac:(lia) (VN w ltac:(lia))); rewrite VN in N1, N2 by lia; injection N1 as <-; injection N2 as <-; cbn [snd] in X1, X2; 
      try apply Rge_le in X1; try apply Rge_le in X2; apply (scaled_le _ _ _ _ A) in X1; apply (scaled_le _ _ _ _ A) in X2; unfold side in *  ; lra. }
  destruct SIDES as (JW & SI & SJ).
  exact (edge_time k t period near jitter td first b y s n d h w T D NP HH NEAR GAP CA MO J PV eq_refl W b' lo B LY S0 S1 i j a IJ JW SI SJ ltac:(lra)).
Qed.
