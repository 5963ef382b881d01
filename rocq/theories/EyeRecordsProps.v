(** C82: records together and apart. *)
From Coq Require Import ZArith Reals Bool List Lia Lra.
Import ListNotations.
From Verif Require Import Base Num RBool LinesModel MaskProofs StatsModel EyeModel EyeSpec Pam2Model Pam2Spec Pam2Proofs Pam2Props EyeImageModel EyeRunModel EyeRunSpec EyeRunProofs EyeReportSpec EyeReportProps EyeDataSpec EyeDataProps.
From Verif Require UncertainProofs EyeRunPeriod EyeLevelsProps EyeImageSpec EyeImageProps.
Local Open Scope R_scope.

Lemma functional_app {X Y} (P : X -> Y -> Prop) la lb : (forall x y z, P x y -> P x z -> y = z) -> forall ra rb r, Forall2 P la ra -> Forall2 P lb rb -> Forall2 P (la ++ lb) r -> r = ra ++ rb.
Proof.
  intro FN. induction la as [|x la IH]; intros ra rb r FA FB F.
  - inversion FA; subst. cbn [app] in F |- * . revert rb r FB F. induction lb as [|x lb IH]; intros rb r FB F; inversion FB; inversion F; subst; [reflexivity|]. f_equal; [eapply FN; eassumption|apply IH; assumption].
  - inversion FA as [|? y ? ra' P1 FA']; subst. cbn [app] in F |- * . inversion F as [|? z ? r' P2 F']; subst. f_equal; [exact (FN _ _ _ P2 P1)|apply IH; assumption].
Qed.
Lemma combine_app {X Y} (a b : list X) (c d : list Y) : length a = length c -> combine (a ++ b) (c ++ d) = combine a c ++ combine b d.
Proof. revert c. induction a as [|x a IH]; intros [|y c] L; try discriminate; [reflexivity|]. cbn. f_equal. apply IH. cbn in L. lia. Qed.
Lemma centers_app t td ea eb wa wb ca cb c : length ea = length wa -> sample_all t td ea wa = Ok ca -> sample_all t td eb wb = Ok cb -> sample_all t td (ea ++ eb) (wa ++ wb) = Ok c -> c = ca ++ cb.
Proof.
  intros L A B C. apply sample_all_inv in A, B, C. destruct A as (_ & A), B as (_ & B), C as (_ & C). rewrite combine_app in C by (symmetry; exact L).
  refine (functional_app _ _ _ _ _ _ _ A B C). intros we x z (t1 & N1 & E1) (t2 & N2 & E2). congruence.
Qed.
Lemma mapM_app {X Y} (f : X -> result Y) la lb ra rb : mapM f la = Ok ra -> mapM f lb = Ok rb -> mapM f (la ++ lb) = Ok (ra ++ rb).
Proof.
  revert ra. induction la as [|x la IH]; intros ra A B; cbn [mapM app] in *  ; [injection A as <-; exact B|]. destruct (f x); [|discriminate]. cbn [bind] in *  . destruct (mapM f la) as [ys|] eqn:E; [|discriminate]. injection A as <-. rewrite (IH ys eq_refl B). reflexivity.
Qed.
(** All but the edge directions, which are kept for each record. *)
Record joined (a b v : @vertical R) : Prop := Joined {
  j_0 : v_0 v = v_0 a ++ v_0 b; j_1 : v_1 v = v_1 a ++ v_1 b; j_cross : v_cross v = v_cross a ++ v_cross b; j_avg : v_avg v = v_avg a ++ v_avg b;
  j_transitions : forall q, v_transitions v q = (v_transitions a q + v_transitions b q)%Z }.
Lemma fold_joined vs : forall s b v, joined s b v -> joined s (fold_left merge vs b) (fold_left merge vs v).
Proof.
  induction vs as [|o vs IH]; intros s b v J; [exact J|]. cbn [fold_left]. apply IH. destruct J as [J0 J1 JC JA JT]. constructor; cbn [merge v_0 v_1 v_cross v_avg v_transitions]; rewrite ?J0, ?J1, ?JC, ?JA; try (symmetry; apply app_assoc). intro q. rewrite JT. lia.
Qed.
Lemma merged_app va vb : joined (fold_left merge va no_vertical) (fold_left merge vb no_vertical) (fold_left merge (va ++ vb) no_vertical).
Proof. rewrite fold_left_app. apply fold_joined. constructor; cbn; try (symmetry; apply app_nil_r). intro q. lia. Qed.
Lemma mean_app a b : a <> [] -> b <> [] -> Rmin (mean a) (mean b) <= mean (a ++ b) <= Rmax (mean a) (mean b).
Proof.
  intros NA NB. assert (PA : 0 < INR (length a)) by (destruct a; [congruence|apply lt_0_INR; cbn; lia]). assert (PB : 0 < INR (length b)) by (destruct b; [congruence|apply lt_0_INR; cbn; lia]).
  assert (S : rsum (a ++ b) = mean a * INR (length a) + mean b * INR (length b)).
  { unfold mean. replace (rsum a / INR (length a) * INR (length a)) with (rsum a) by (field; lra). replace (rsum b / INR (length b) * INR (length b)) with (rsum b) by (field; lra). clear. unfold rsum. induction a as [|x a IH]; cbn [app fold_right]; lra. }
  unfold mean at 3 4. rewrite app_length, plus_INR, S. pose proof (Rmin_l (mean a) (mean b)). pose proof (Rmin_r (mean a) (mean b)). pose proof (Rmax_l (mean a) (mean b)). pose proof (Rmax_r (mean a) (mean b)).
  set (x := mean a) in *  . set (y := mean b) in *  . set (p := INR (length a)) in *  . set (q := INR (length b)) in *  .
  split; apply (Rmult_le_reg_r (p + q)); try lra; replace ((x * p + y * q) / (p + q) * (p + q)) with (x * p + y * q) by (field; lra); nra.
Qed.
(** Between two values, if both are there. *)
Definition between_values (a b u : option uvalue) : Prop :=
  forall x y, a = Some x -> b = Some y -> exists z, u = Some z /\ Rmin (value x) (value y) <= value z <= Rmax (value x) (value y).
Lemma usamples_app a b : between_values (usamples a) (usamples b) (usamples (a ++ b)).
Proof.
  intros x y A B. destruct (usamples_mean _ _ A) as (NA & VA). destruct (usamples_mean _ _ B) as (NB & VB).
  destruct (usamples (a ++ b)) as [z|] eqn:E; [|destruct a; [congruence|discriminate]]. exists z. split; [reflexivity|]. destruct (usamples_mean _ _ E) as (_ & ->). rewrite VA, VB. apply mean_app; assumption.
Qed.

(** The step of eye_sample_mask from another state. *)
Lemma masks_from {X} (F : X -> result (@mask_values R)) (step := fun (st : list (list nat) * list (R * R) * R * nat) x => let '(offs, hs, mg, cnt) := st in
    bind (F x) (fun o => Ok (offs ++ [offenders o], hs ++ mask_hits o, if Rltb (margin o) mg then margin o else mg, (cnt + length (offenders o))%nat))) l : forall offs hs mg cnt offs' hs' cnt' r,
  forall a, foldM step (offs, hs, mg, cnt) l = Ok r -> exists offs1 hs1, foldM step (offs', hs', Rmin a mg, cnt') l = Ok (offs1, hs1, Rmin a (snd (fst r)), (cnt' + (snd r - cnt))%nat) /\ snd (fst r) <= mg /\ (cnt <= snd r)%nat.
Proof.
  induction l as [|x l IH]; intros offs hs mg cnt offs' hs' cnt' r a E.
  - cbn [foldM] in *  . injection E as <-. cbn [fst snd]. exists offs', hs'. rewrite PeanoNat.Nat.sub_diag, PeanoNat.Nat.add_0_r. split; [reflexivity|]. split; [lra|lia].
  - cbn [foldM] in *  . unfold step at 1 in E. unfold step at 1. destruct (F x) as [o|]; [|discriminate]. cbn [bind] in *  .
    assert (MI : (if Rltb (margin o) (Rmin a mg) then margin o else Rmin a mg) = Rmin a (if Rltb (margin o) mg then margin o else mg)).
    { unfold Rmin. destruct (Rltb (margin o) mg) eqn:B1; [apply Rltb_true in B1|apply Rltb_false in B1]; destruct (Rle_dec a mg); destruct (Rle_dec a (margin o)); match goal with |- (if ?c then _ else _) = _ => destruct c eqn:B2 end; [apply Rltb_true in B2|apply Rltb_false in B2|..]; try lra; try (apply Rltb_true in B2; lra); try (apply Rltb_false in B2; lra). }
    rewrite MI. destruct (IH _ _ _ _ (offs' ++ [offenders o]) (hs' ++ mask_hits o) (cnt' + length (offenders o))%nat _ a E) as (o1 & h1 & E1 & LE & LC). exists o1, h1. rewrite E1. split; [apply f_equal; apply f_equal2; [reflexivity|lia]|]. split; [|lia].
    refine (Rle_trans _ _ _ LE _). destruct (Rltb (margin o) mg) eqn:B1; [apply Rltb_true in B1; lra|lra].
Qed.
Lemma foldM_app {S X} (f : S -> X -> result S) la lb s : foldM f s (la ++ lb) = bind (foldM f s la) (fun r => foldM f r lb).
Proof. revert s. induction la as [|x la IH]; intro s; [reflexivity|]. cbn [app foldM]. destruct (f s x); [apply IH|reflexivity]. Qed.
Lemma mask_app mk td t yz ua la lb r ra rb : eye_sample_mask int_of_float (Some mk) td t yz ua (la ++ lb) = Ok r -> eye_sample_mask int_of_float (Some mk) td t yz ua la = Ok ra -> eye_sample_mask int_of_float (Some mk) td t yz ua lb = Ok rb ->
  snd r = (snd ra + snd rb)%nat /\ snd (fst r) = Rmin (snd (fst ra)) (snd (fst rb)).
Proof.
  unfold eye_sample_mask. intros E EA EB. apply bind_ok in E, EA, EB. destruct E as (mc & M1 & E), EA as (mc2 & M2 & EA), EB as (mc3 & M3 & EB). rewrite M1 in M2, M3. injection M2 as <-. injection M3 as <-.
  apply bind_ok in E, EA, EB. destruct E as (ps & P1 & E), EA as (ps2 & P2 & EA), EB as (ps3 & P3 & EB). rewrite P1 in P2, P3. injection P2 as <-. injection P3 as <-.
  rewrite foldM_app in E. rewrite EA in E. cbn [bind] in E. destruct ra as [[[oa ha] ma] ca].
  destruct (masks_from _ _ _ _ _ _ [] [] 0%nat _ 0 EA) as (_ & _ & _ & LA & _). cbn [fst snd] in LA.
  destruct (masks_from _ _ _ _ _ _ oa ha ca _ ma EB) as (o1 & h1 & E1 & _). rewrite Rmin_left in E1 by exact LA.
  assert (r = (o1, h1, Rmin ma (snd (fst rb)), (ca + (snd rb - 0))%nat)) as -> by (cut (@Ok (list (list nat) * list (R * R) * R * nat) r = Ok (o1, h1, Rmin ma (snd (fst rb)), (ca + (snd rb - 0))%nat)); [intro X; injection X; auto|rewrite <- E, <- E1; reflexivity]).
  cbn [fst snd]. split; [lia|reflexivity].
Qed.

(** The symbol period of clocks of which no period is ten times as long as
    another: that of all records lies between those of the parts. *)
Lemma periods_kept edges lo hi : edges <> [] -> (forall p, is_period edges p -> lo <= p <= hi) -> hi < 10 * lo ->
  symbol_period edges = Ok (match usamples (EyeRunPeriod.periods edges) with Some u => Some (value u) | None => None end).
Proof.
  intros NE B H. unfold symbol_period. destruct edges as [|x r]; [congruence|]. fold (EyeRunPeriod.periods (x :: r)). set (l := EyeRunPeriod.periods (x :: r)).
  assert (BL : forall p, In p l -> lo <= p <= hi) by (intros p I; apply B; apply EyeRunPeriod.periods_In; exact I).
  assert (F : filter (fun p => Rltb p (10 * CdrModel.mean l)) l = l); [|rewrite F; reflexivity].
  destruct l as [|q l'] eqn:E; [reflexivity|]. rewrite <- E in *  . assert (M : lo <= CdrModel.mean l <= hi) by (apply EyeLevelsProps.mean_range; [rewrite E; discriminate|exact BL]).
  set (m := CdrModel.mean l) in *  . clearbody m. clear - BL M H. induction l as [|p l IH]; [reflexivity|]. cbn [filter]. assert (T : Rltb p (10 * m) = true) by (apply Rltb_true; specialize (BL p (or_introl eq_refl)); lra). rewrite T. f_equal. apply IH. intros z I. apply BL. right. exact I.
Qed.
Theorem C82_period ea eb lo hi ta tb : (forall p, is_period (ea ++ eb) p -> lo <= p <= hi) -> hi < 10 * lo ->
  symbol_period ea = Ok (Some ta) -> symbol_period eb = Ok (Some tb) -> exists t, symbol_period (ea ++ eb) = Ok (Some t) /\ Rmin ta tb <= t <= Rmax ta tb.
Proof.
  intros B H A C. assert (NA : ea <> []) by (intros ->; discriminate). assert (NB : eb <> []) by (intros ->; discriminate).
  rewrite (periods_kept ea lo hi NA) in A; [|intros p (l & I & J); apply B; exists l; split; [apply in_or_app; left; exact I|exact J]|exact H].
  rewrite (periods_kept eb lo hi NB) in C; [|intros p (l & I & J); apply B; exists l; split; [apply in_or_app; right; exact I|exact J]|exact H].
  rewrite (periods_kept (ea ++ eb) lo hi); [|intro X; apply app_eq_nil in X; tauto|exact B|exact H]. unfold EyeRunPeriod.periods in *  . rewrite map_app, concat_app.
  destruct (usamples (concat (map CdrModel.diff ea))) as [ua|] eqn:UA; [|discriminate]. destruct (usamples (concat (map CdrModel.diff eb))) as [ub|] eqn:UB; [|discriminate]. injection A as <-. injection C as <-.
  destruct (usamples_app _ _ _ _ UA UB) as (z & -> & Z). exists (value z). split; [reflexivity|exact Z].
Qed.
Print Assumptions C82_period.
Example C82_period_met : (forall p, is_period ([[0; 2; 5]] ++ [[0; 4]]) p -> 2 <= p <= 4) /\ exists ta tb, symbol_period [[0; 2; 5]] = Ok (Some ta) /\ symbol_period [[0; 4]] = Ok (Some tb).
Proof.
  assert (B : forall p, is_period ([[0; 2; 5]] ++ [[0; 4]]) p -> 2 <= p <= 4).
  { intros p (l & [<-|[<-|[]]] & k & a & b & A & C & ->); destruct k as [|[|[|k]]]; cbn in A, C; try discriminate; try (destruct k; discriminate); injection A as <-; injection C as <-; lra. }
  split; [exact B|]. rewrite (periods_kept [[0; 2; 5]] 2 4), (periods_kept [[0; 4]] 2 4); try discriminate; try lra; [|intros p (l & I & J); apply B; exists l; split; [right; exact I|exact J]|intros p (l & [<-|[]] & J); apply B; exists [0; 2; 5]; split; [left; reflexivity|exact J]].
  destruct (UncertainProofs.usamples_spec (EyeRunPeriod.periods [[0; 2; 5]])) as (u & -> & _); [discriminate|]. destruct (UncertainProofs.usamples_spec (EyeRunPeriod.periods [[0; 4]])) as (v & -> & _); [discriminate|]. eexists. eexists. split; reflexivity.
Qed.

Section Records.
Variable round6 : R -> R.
Variable fit : nat -> list R -> result (list (R * R * R)).
Variable aic : list (R * R * R) -> list R -> R.
Variable new_cdr : R -> cdr.
Variable percentile : list R -> R -> R.
Variable cast : R -> Z.
Variable fuel : nat.
Variable draw : drawing.
Let find_levels := find_levels round6 fit aic.
Let completed := completed round6 fit aic new_cdr percentile cast fuel draw.

(** The threshold and the windows of an eye diagram. *)
Definition settings (d : bool) (e : eye) (half td lw cw : R) : Prop :=
  (exists l, find_levels (e_config e) (all_samples (e_waveforms e)) d = Ok l /\ l_half l = half) /\ e_t_delta e = td
  /\ c_level_width (e_config e) = lw /\ c_cross_width (e_config e) = cw /\ c_skip_measures (e_config e) = false.

(** An eye diagram of some records and of some more, completed, and completed eye
    diagrams of the first and of the others, with the same threshold, windows and
    symbol period: bits are those of the parts one after the other, counts are
    added, and each level is between those of the parts. *)
Theorem C82_records d da db e a b m ma mb f fa fb ea eb t half td lw cw :
  completed d e m f (ea ++ eb) t -> completed da a ma fa ea t -> completed db b mb fb eb t ->
  waves (e_waveforms e) = waves (e_waveforms a) ++ waves (e_waveforms b) -> length ea = length (waves (e_waveforms a)) ->
  settings d e half td lw cw -> settings da a half td lw cw -> settings db b half td lw cw ->
  n_sym m = (n_sym ma + n_sym mb)%Z
  /\ (forall q, transition_dist m q = transition_dist ma q + transition_dist mb q)%Z
  /\ (forall marks, exists xa xb, bit_stream fa marks = Ok xa /\ bit_stream fb marks = Ok xb /\ bit_stream f marks = Ok (xa ++ xb))
  /\ exists my ya yb, in_y m = Some my /\ in_y ma = Some ya /\ in_y mb = Some yb
       /\ between_values (m_y_0 ya) (m_y_0 yb) (m_y_0 my) /\ between_values (m_y_1 ya) (m_y_1 yb) (m_y_1 my)
       /\ between_values (m_y_cross ya) (m_y_cross yb) (m_y_cross my) /\ between_values (m_y_avg ya) (m_y_avg yb) (m_y_avg my).
Proof.
  intros CO COa COb WV LE ((l & FL & H) & TD & LW & CW & SK) ((la & FLa & Ha) & TDa & LWa & CWa & SKa) ((lb & FLb & Hb) & TDb & LWb & CWb & SKb).
  destruct (whole round6 fit aic new_cdr percentile cast fuel draw _ _ _ _ _ _ CO) as (l1 & c & w & t0 & dirs & yz & ua & syms & _ & FL1 & SA & _ & _ & ME & _ & CA & DI & _ & _ & _ & _ & N & LC).
  destruct (whole round6 fit aic new_cdr percentile cast fuel draw _ _ _ _ _ _ COa) as (l2 & ca & ? & ? & dirsa & ? & ? & symsa & _ & FL2 & SAa & _ & _ & MEa & _ & CAa & DIa & _ & _ & _ & _ & Na & LCa).
  destruct (whole round6 fit aic new_cdr percentile cast fuel draw _ _ _ _ _ _ COb) as (l3 & cb & ? & ? & dirsb & ? & ? & symsb & _ & FL3 & SAb & _ & _ & MEb & _ & CAb & DIb & _ & _ & _ & _ & Nb & LCb).
  assert (l1 = l) as -> by (unfold find_levels in FL; congruence). assert (l2 = la) as -> by (unfold find_levels in FLa; congruence). assert (l3 = lb) as -> by (unfold find_levels in FLb; congruence).
  rewrite TD, WV in SA. rewrite TDa in SAa. rewrite TDb in SAb. pose proof (centers_app _ _ _ _ _ _ _ _ _ LE SAa SAb SA) as ->.
  destruct (measured_inv _ _ _ _ _ _ _ _ _ _ _ _ SK ME) as (vs & ? & ? & ? & ? & ? & ? & ? & MV & ED & TR & IY & _).
  destruct (measured_inv _ _ _ _ _ _ _ _ _ _ _ _ SKa MEa) as (va & ? & ? & ? & ? & ? & ? & ? & MVa & EDa & TRa & IYa & _).
  destruct (measured_inv _ _ _ _ _ _ _ _ _ _ _ _ SKb MEb) as (vb & ? & ? & ? & ? & ? & ? & ? & MVb & EDb & TRb & IYb & _).
  assert (LCE : length ca = length (waves (e_waveforms a))). { destruct (sample_all_inv _ _ _ _ _ SAa) as (_ & F). apply same_length in F. rewrite combine_length in F. etransitivity; [symmetry; exact F|]. etransitivity; [apply f_equal; exact LE|]. apply PeanoNat.Nat.min_id. }
  rewrite TD, H, LW, CW, WV, map_app, combine_app in MV by (rewrite map_length; symmetry; exact LCE). rewrite TDa, Ha, LWa, CWa in MVa. rewrite TDb, Hb, LWb, CWb in MVb. rewrite (mapM_app _ _ _ _ _ MVa MVb) in MV. injection MV as <-.
  destruct (merged_app va vb) as [J0 J1 JC JA JT].
  split; [rewrite N, Na, Nb, <- LC, <- LCa, <- LCb, concat_app, app_length; lia|]. split; [intro q; rewrite TR, TRa, TRb; apply JT|]. split.
  - intro marks. exists (map (bits_of marks) (map (fun v => v_edge_dir v) va)), (map (bits_of marks) (map (fun v => v_edge_dir v) vb)). unfold bit_stream. rewrite CA, CAa, CAb, DI, DIa, DIb, ED, EDa, EDb, !map_app. split; [reflexivity|]. split; [reflexivity|]. unfold get_bit_stream. cbn [negb]. rewrite map_app. reflexivity.
  - eexists. eexists. eexists. split; [exact IY|]. split; [exact IYa|]. split; [exact IYb|]. unfold measure_y. cbn [m_y_0 m_y_1 m_y_cross m_y_avg]. rewrite J0, J1, JC, JA. repeat split; apply usamples_app.
Qed.
(** With a mask and configured levels also: symbols that hit the mask are added,
    and the margin is the smaller one. *)
Theorem C82_mask d da db e a b m ma mb f fa fb ea eb t half td lw cw mk low high :
  completed d e m f (ea ++ eb) t -> completed da a ma fa ea t -> completed db b mb fb eb t ->
  waves (e_waveforms e) = waves (e_waveforms a) ++ waves (e_waveforms b) -> length ea = length (waves (e_waveforms a)) ->
  settings d e half td lw cw -> settings da a half td lw cw -> settings db b half td lw cw ->
  (forall x, In x [e; a; b] -> e_mask x = Some mk /\ c_y_0 (e_config x) = Some low /\ c_y_1 (e_config x) = Some high) ->
  exists na nb ga gb, n_sym_bad ma = Some na /\ n_sym_bad mb = Some nb /\ n_sym_bad m = Some (na + nb)%nat
    /\ mask_margin ma = Some ga /\ mask_margin mb = Some gb /\ mask_margin m = Some (Rmin ga gb).
Proof.
  intros CO COa COb WV LE ((l & FL & H) & TD & LW & CW & SK) ((la & FLa & Ha) & TDa & LWa & CWa & SKa) ((lb & FLb & Hb) & TDb & LWb & CWb & SKb) AL.
  destruct (AL e (or_introl eq_refl)) as (MK & Y0 & Y1). destruct (AL a (or_intror (or_introl eq_refl))) as (MKa & Y0a & Y1a). destruct (AL b (or_intror (or_intror (or_introl eq_refl)))) as (MKb & Y0b & Y1b).
  destruct (whole round6 fit aic new_cdr percentile cast fuel draw _ _ _ _ _ _ CO) as (l1 & c & w & t0 & dirs & yz & ua & syms & _ & FL1 & SA & _ & _ & ME & _).
  destruct (whole round6 fit aic new_cdr percentile cast fuel draw _ _ _ _ _ _ COa) as (l2 & ca & ? & ? & dirsa & yza & uaa & symsa & _ & FL2 & SAa & _ & _ & MEa & _).
  destruct (whole round6 fit aic new_cdr percentile cast fuel draw _ _ _ _ _ _ COb) as (l3 & cb & ? & ? & dirsb & yzb & uab & symsb & _ & FL3 & SAb & _ & _ & MEb & _).
  assert (Z : forall x dd lx, c_y_0 (e_config x) = Some low -> EyeRunModel.find_levels round6 fit aic (e_config x) (all_samples (e_waveforms x)) dd = Ok lx -> l_zero lx = low).
  { intros ob dd lx Y F. unfold EyeRunModel.find_levels in F. apply bind_ok in F. destruct F as ([u0 u1] & _ & F). rewrite Y in F. injection F as <-. reflexivity. }
  apply Z in FL1, FL2, FL3; [|assumption..].
  rewrite TD, WV in SA. rewrite TDa in SAa. rewrite TDb in SAb. pose proof (centers_app _ _ _ _ _ _ _ _ _ LE SAa SAb SA) as ->.
  destruct (measured_inv _ _ _ _ _ _ _ _ _ _ _ _ SK ME) as (? & m0 & amp & ? & offs & hs & mg & bad & _ & _ & _ & _ & _ & _ & _ & (yh & UL) & MA & MM & NB & _).
  destruct (measured_inv _ _ _ _ _ _ _ _ _ _ _ _ SKa MEa) as (? & m0a & ampa & ? & offsa & hsa & mga & bada & _ & _ & _ & _ & _ & _ & _ & (yha & ULa) & MAa & MMa & NBa & _).
  destruct (measured_inv _ _ _ _ _ _ _ _ _ _ _ _ SKb MEb) as (? & m0b & ampb & ? & offsb & hsb & mgb & badb & _ & _ & _ & _ & _ & _ & _ & (yhb & ULb) & MAb & MMb & NBb & _).
  rewrite MK in MA, MM, NB. rewrite MKa in MAa, MMa, NBa. rewrite MKb in MAb, MMb, NBb.
  unfold update_levels in UL, ULa, ULb. rewrite Y0, Y1, FL1 in UL. rewrite Y0a, Y1a, FL2 in ULa. rewrite Y0b, Y1b, FL3 in ULb. injection UL as <- <- _. injection ULa as <- <- _. injection ULb as <- <- _.
  assert (LCE : length ca = length (waves (e_waveforms a))). { destruct (sample_all_inv _ _ _ _ _ SAa) as (_ & F). apply same_length in F. rewrite combine_length in F. etransitivity; [symmetry; exact F|]. etransitivity; [apply f_equal; exact LE|]. apply PeanoNat.Nat.min_id. }
  rewrite TD, WV, map_app, combine_app in MA by (rewrite map_length; symmetry; exact LCE). rewrite TDa in MAa. rewrite TDb in MAb.
  destruct (mask_app _ _ _ _ _ _ _ _ _ _ MA MAa MAb) as (N & G). cbn [fst snd] in N, G. exists bada, badb, mga, mgb. rewrite N in NB. rewrite G in MM. repeat (split; [assumption|]). assumption.
Qed.
End Records.
Print Assumptions C82_mask.
Print Assumptions C82_records.

(** ** A concrete case: the record of C67_met, and its opposite between 0 and 1. *)
Definition level (j : nat) : R := match (j mod 8)%nat with 0%nat | 1%nat | 7%nat => 1 | 2%nat | 6%nat => 1 / 2 | _ => 0 end.
Definition other_wave : ndarray := NdArray [2; 28]%nat (fun i => match i with [0%nat; j] => INR j | [1%nat; j] => 1 - level j | _ => 0 end).
Definition both_wave : ndarray := NdArray [2; 2; 28]%nat (fun i => match i with [_; 0%nat; j] => INR j | [0%nat; 1%nat; j] => level j | [_; 1%nat; j] => 1 - level j | _ => 0 end).
Definition other_y : list R := map (fun j => 1 - level j) (seq 0 28).
Definition other_signal : signal := (8, fun n => negb (Z.even n)).
Lemma record_other td : record_of (Bands 0 0 1 1) 4 (3 / 2) 0 td (bits_t, bits_y, bits_clock) bits_signal -> record_of (Bands 0 0 1 1) 4 (3 / 2) 0 td (bits_t, other_y, bits_clock) other_signal.
Proof.
  intros (CA & CL). split; [|exact CL]. cbn [fst snd] in CA |- * . intros first F0 j n J N. change (length other_y) with 28%nat in J. specialize (CA first F0 j n J N).
  assert (V : nth j bits_y 0 = level j) by (apply nth_error_nth; unfold bits_y; rewrite nth_error_map, (nth_error_nth' _ 0%nat) by (rewrite seq_length; exact J); rewrite seq_nth by exact J; reflexivity).
  assert (V' : nth j other_y 0 = 1 - level j) by (apply nth_error_nth; unfold other_y; rewrite nth_error_map, (nth_error_nth' _ 0%nat) by (rewrite seq_length; exact J); rewrite seq_nth by exact J; reflexivity).
  rewrite V'. rewrite V in CA. unfold shows, other_signal, bits_signal in *  . cbn [snd low_from low_to high_from high_to] in *  . destruct (Z.even n); cbn [negb]; lra.
Qed.
Lemma both_period : symbol_period [bits_clock; bits_clock] = Ok (Some 4).
Proof.
  unfold symbol_period. assert (E : concat (map CdrModel.diff [bits_clock; bits_clock]) = [4; 4; 4; 4; 4; 4]) by (unfold bits_clock; cbn; repeat (apply f_equal2; [lra|]); reflexivity). rewrite E.
  assert (M : CdrModel.mean [4; 4; 4; 4; 4; 4] = 4) by (unfold CdrModel.mean; cbn; lra). rewrite M. cbn [filter]. assert (B : Rltb 4 (10 * 4) = true) by (apply Rltb_true; lra). rewrite B.
  destruct (UncertainProofs.usamples_spec [4; 4; 4; 4; 4; 4]) as (u & U & V & _); [discriminate|]. rewrite U. do 2 f_equal. cbn [length] in V. rewrite INR_IZR_INZ in V. cbn in V. lra.
Qed.
Section Case.
Variable round6 : R -> R.
Variable fit : nat -> list R -> result (list (R * R * R)).
Variable aic : list (R * R * R) -> list R -> R.
Variable new_cdr : R -> cdr.
Variable percentile : list R -> R -> R.
Variable cast : R -> Z.
Variable fuel : nat.
Variable draw : drawing.
Lemma bits_settings e : e_config e = bits_config' -> e_t_delta e = 1 -> settings round6 fit aic false e (1 / 2) 1 (3 / 10) (3 / 10).
Proof. intros CF TD. unfold settings. rewrite CF. split; [eexists; split; [reflexivity|]; cbn; lra|]. split; [exact TD|]. repeat split. Qed.
Lemma bits_run e edges y s ys ss : waves (e_waveforms e) = (bits_t, y) :: ys -> edges = bits_clock :: map (fun _ => bits_clock) ys -> e_config e = bits_config' -> e_t_delta e = 1 -> e_clock_edges e = Some edges -> usable_mask draw (Bands 0 0 1 1) 4 0 e ->
  e_resolution e = 10%Z -> symbol_period edges = Ok (Some 4) -> (forall w, In w ys -> fst w <> []) -> (s = bits_signal \/ s = other_signal) ->
  Forall2 (record_of (Bands 0 0 1 1) 4 (3 / 2) 0 1) (combine (waves (e_waveforms e)) edges) (s :: ss) -> exists m e1, completed round6 fit aic new_cdr percentile cast fuel draw false e m e1 edges 4.
Proof.
  intros WV ED CF TD CE UM RS SP NE SS RO.
  assert (PP : forall p, is_period edges p -> 0 < p).
  { intros p (l & I & k & a & b & A & B & ->). assert (l = bits_clock) as -> by (rewrite ED in I; destruct I as [<-|I]; [reflexivity|]; apply in_map_iff in I; destruct I as (? & <- & _); reflexivity).
    unfold bits_clock in A, B. destruct k as [|[|[|k]]]; cbn in A, B; [injection A as <-; injection B as <-; lra..|destruct k as [|k]; [discriminate|destruct k; discriminate]]. }
  destruct (bits_settings e CF TD) as ((l & FL & LH) & _).
  assert (END : end_time 1 0 28 = 27) by (unfold end_time; rewrite INR_IZR_INZ; cbn [Z.of_nat Pos.of_succ_nat Pos.succ]; lra).
  assert (HS : forall (P : decision -> Prop) i b, nth_error bits_clock i = Some b -> 8 <= b <= 20 -> P (pattern s (Z.of_nat i)) -> has_symbol 4 (e_t_delta e) (combine (waves (e_waveforms e)) edges) (s :: ss) P).
  { intros P i b NB B HP. rewrite WV, TD, ED. exists (bits_t, y, bits_clock), s, 0, i, b. split; [left; reflexivity|]. split; [reflexivity|]. split; [exact NB|]. split; [|exact HP].
    cbn [fst snd]. change (length bits_t) with 28%nat. rewrite END. unfold well_inside. lra. }
  destruct (C67_calculated round6 fit aic new_cdr percentile cast fuel draw e l edges 4 (Bands 0 0 1 1) 4 (3 / 2) 0 (s :: ss) FL) as (m & e1 & CO & _);
    [cbn [low_to high_from]; rewrite LH; lra|exact CE|exact SP|exact PP|rewrite TD; lra|rewrite WV, ED; cbn [length]; rewrite map_length; apply le_n|rewrite WV; intros w [<-|I]; [discriminate|exact (NE w I)]|replace (4 - 4) with 0 by lra; rewrite Rabs_R0; exact UM|rewrite RS; lia|rewrite CF; reflexivity|
     rewrite CF; reflexivity|rewrite CF; cbn; lra|rewrite CF; cbn; lra|rewrite CF, TD; cbn; lra|rewrite CF, TD; cbn; lra|rewrite CF; cbn; lra|rewrite TD; lra|rewrite CF, TD; cbn [c_level_width bits_config']; replace (4 - 4) with 0 by lra; rewrite Rabs_R0; lra|rewrite TD; exact RO| | | |exists m, e1; exact CO].
  - destruct SS as [-> | ->]; [refine (HS _ 0%nat 8 eq_refl ltac:(lra) _)|refine (HS _ 1%nat 12 eq_refl ltac:(lra) _)]; reflexivity.
  - destruct SS as [-> | ->]; [refine (HS _ 1%nat 12 eq_refl ltac:(lra) _)|refine (HS _ 0%nat 8 eq_refl ltac:(lra) _)]; reflexivity.
  - destruct SS as [-> | ->]; refine (HS _ 1%nat 12 eq_refl ltac:(lra) _); discriminate.
Qed.
Example C82_met : exists e a b m ma mb f fa fb,
  construct both_wave None (Some (ListOf [(true, bits_clock); (true, bits_clock)])) None 10 (Some (Some bits_config')) = Ok e
  /\ construct bits_wave None (Some (ListOf [(true, bits_clock)])) None 10 (Some (Some bits_config')) = Ok a
  /\ construct other_wave None (Some (ListOf [(true, bits_clock)])) None 10 (Some (Some bits_config')) = Ok b
  /\ completed round6 fit aic new_cdr percentile cast fuel draw false e m f ([bits_clock] ++ [bits_clock]) 4
  /\ completed round6 fit aic new_cdr percentile cast fuel draw false a ma fa [bits_clock] 4 /\ completed round6 fit aic new_cdr percentile cast fuel draw false b mb fb [bits_clock] 4
  /\ waves (e_waveforms e) = waves (e_waveforms a) ++ waves (e_waveforms b) /\ length [bits_clock] = length (waves (e_waveforms a))
  /\ settings round6 fit aic false e (1 / 2) 1 (3 / 10) (3 / 10) /\ settings round6 fit aic false a (1 / 2) 1 (3 / 10) (3 / 10) /\ settings round6 fit aic false b (1 / 2) 1 (3 / 10) (3 / 10)
  /\ exists other, bit_stream fb false = Ok other /\ bit_stream f false = Ok ([1; 0; 1; 0]%Z :: other).
Proof.
  destruct (C67_met round6 fit aic new_cdr percentile cast fuel draw) as (a & ma & fa & C & RO & COa & BS).
  destruct (construct other_wave None (Some (ListOf [(true, bits_clock)])) None 10 (Some (Some bits_config'))) as [b|] eqn:Cb; [|discriminate].
  destruct (construct both_wave None (Some (ListOf [(true, bits_clock); (true, bits_clock)])) None 10 (Some (Some bits_config'))) as [e|] eqn:Ce; [|discriminate].
  assert (ONE : (INR 27 - INR 0) / INR 27 = 1) by (rewrite (INR_IZR_INZ 27), (INR_IZR_INZ 0); cbn [Z.of_nat Pos.of_succ_nat Pos.succ]; lra).
  assert (TDa : e_t_delta a = 1) by (injection C as <-; exact ONE). assert (TDb : e_t_delta b = 1) by (injection Cb as <-; exact ONE). assert (TDe : e_t_delta e = 1) by (injection Ce as <-; exact ONE).
  assert (WVa : waves (e_waveforms a) = [(bits_t, bits_y)]) by (injection C as <-; reflexivity). assert (WVb : waves (e_waveforms b) = [(bits_t, other_y)]) by (injection Cb as <-; reflexivity).
  assert (WVe : waves (e_waveforms e) = [(bits_t, bits_y); (bits_t, other_y)]) by (injection Ce as <-; reflexivity).
  assert (CFa : e_config a = bits_config') by (injection C as <-; reflexivity). assert (CFb : e_config b = bits_config') by (injection Cb as <-; reflexivity). assert (CFe : e_config e = bits_config') by (injection Ce as <-; reflexivity).
  rewrite WVa, TDa in RO. cbn [combine] in RO. inversion RO as [|? ? ? ? R1 _]; subst. pose proof (record_other 1 R1) as R2.
  destruct (bits_run b [bits_clock] other_y other_signal [] [] WVb eq_refl CFb TDb) as (mb & fb & COb);
    [injection Cb as <-; reflexivity|left; split; injection Cb as <-; reflexivity|injection Cb as <-; reflexivity|exact bits_period|intros w []|right; reflexivity|rewrite WVb; constructor; [exact R2|constructor]|].
  destruct (bits_run e [bits_clock; bits_clock] bits_y bits_signal [(bits_t, other_y)] [other_signal] WVe eq_refl CFe TDe) as (m & f & COe);
    [injection Ce as <-; reflexivity|left; split; injection Ce as <-; reflexivity|injection Ce as <-; reflexivity|exact both_period|intros w [<-|[]]; discriminate|left; reflexivity|rewrite WVe; constructor; [exact R1|constructor; [exact R2|constructor]]|].
  assert (WV : waves (e_waveforms e) = waves (e_waveforms a) ++ waves (e_waveforms b)) by (rewrite WVe, WVa, WVb; reflexivity). assert (LE : length [bits_clock] = length (waves (e_waveforms a))) by (rewrite WVa; reflexivity).
  exists e, a, b, m, ma, mb, f, fa, fb. split; [reflexivity|]. split; [exact C|]. split; [reflexivity|]. split; [exact COe|]. split; [exact COa|]. split; [exact COb|]. split; [exact WV|]. split; [exact LE|].
  split; [exact (bits_settings e CFe TDe)|]. split; [exact (bits_settings a CFa TDa)|]. split; [exact (bits_settings b CFb TDb)|].
  destruct (C82_records round6 fit aic new_cdr percentile cast fuel draw false false false e a b m ma mb f fa fb [bits_clock] [bits_clock] 4 (1 / 2) 1 (3 / 10) (3 / 10) COe COa COb WV LE (bits_settings e CFe TDe) (bits_settings a CFa TDa) (bits_settings b CFb TDb)) as (_ & _ & BT & _).
  destruct (BT false) as (xa & xb & A & B & E). rewrite BS in A. injection A as <-. exists xb. split; [exact B|exact E].
Qed.
Lemma bits_usable e : EyeImageSpec.fair (line_aa draw) -> e_config e = bits_config' -> e_mask e = Some EyeImageProps.bits_mask -> usable_mask draw (Bands 0 0 1 1) 4 0 e.
Proof.
  intros FA CF MK. right. exists EyeImageProps.bits_mask. split; [exact MK|]. split; [exact FA|]. intros low high t _ _ _. rewrite CF. exists EyeImageProps.bits_outline. split; [reflexivity|exact EyeImageProps.bits_adjustable].
Qed.
(** The same with a mask. *)
Example C82_mask_met : EyeImageSpec.fair (line_aa draw) -> exists e a b m ma mb f fa fb,
  construct both_wave None (Some (ListOf [(true, bits_clock); (true, bits_clock)])) (Some EyeImageProps.bits_mask) 10 (Some (Some bits_config')) = Ok e
  /\ construct bits_wave None (Some (ListOf [(true, bits_clock)])) (Some EyeImageProps.bits_mask) 10 (Some (Some bits_config')) = Ok a
  /\ construct other_wave None (Some (ListOf [(true, bits_clock)])) (Some EyeImageProps.bits_mask) 10 (Some (Some bits_config')) = Ok b
  /\ completed round6 fit aic new_cdr percentile cast fuel draw false e m f ([bits_clock] ++ [bits_clock]) 4
  /\ completed round6 fit aic new_cdr percentile cast fuel draw false a ma fa [bits_clock] 4 /\ completed round6 fit aic new_cdr percentile cast fuel draw false b mb fb [bits_clock] 4
  /\ waves (e_waveforms e) = waves (e_waveforms a) ++ waves (e_waveforms b)
  /\ (forall x, In x [e; a; b] -> settings round6 fit aic false x (1 / 2) 1 (3 / 10) (3 / 10) /\ e_mask x = Some EyeImageProps.bits_mask /\ c_y_0 (e_config x) = Some 0 /\ c_y_1 (e_config x) = Some 1).
Proof.
  intro FA. destruct (C67_met round6 fit aic new_cdr percentile cast fuel draw) as (a0 & _ & _ & C0 & RO & _).
  destruct (construct bits_wave None (Some (ListOf [(true, bits_clock)])) (Some EyeImageProps.bits_mask) 10 (Some (Some bits_config'))) as [a|] eqn:C; [|discriminate].
  destruct (construct other_wave None (Some (ListOf [(true, bits_clock)])) (Some EyeImageProps.bits_mask) 10 (Some (Some bits_config'))) as [b|] eqn:Cb; [|discriminate].
  destruct (construct both_wave None (Some (ListOf [(true, bits_clock); (true, bits_clock)])) (Some EyeImageProps.bits_mask) 10 (Some (Some bits_config'))) as [e|] eqn:Ce; [|discriminate].
  assert (ONE : (INR 27 - INR 0) / INR 27 = 1) by (rewrite (INR_IZR_INZ 27), (INR_IZR_INZ 0); cbn [Z.of_nat Pos.of_succ_nat Pos.succ]; lra).
  assert (TD0 : e_t_delta a0 = 1) by (injection C0 as <-; exact ONE). assert (WV0 : waves (e_waveforms a0) = [(bits_t, bits_y)]) by (injection C0 as <-; reflexivity).
  assert (TDa : e_t_delta a = 1) by (injection C as <-; exact ONE). assert (TDb : e_t_delta b = 1) by (injection Cb as <-; exact ONE). assert (TDe : e_t_delta e = 1) by (injection Ce as <-; exact ONE).
  assert (WVa : waves (e_waveforms a) = [(bits_t, bits_y)]) by (injection C as <-; reflexivity). assert (WVb : waves (e_waveforms b) = [(bits_t, other_y)]) by (injection Cb as <-; reflexivity).
  assert (WVe : waves (e_waveforms e) = [(bits_t, bits_y); (bits_t, other_y)]) by (injection Ce as <-; reflexivity).
  assert (CFa : e_config a = bits_config') by (injection C as <-; reflexivity). assert (CFb : e_config b = bits_config') by (injection Cb as <-; reflexivity). assert (CFe : e_config e = bits_config') by (injection Ce as <-; reflexivity).
  assert (MKa : e_mask a = Some EyeImageProps.bits_mask) by (injection C as <-; reflexivity). assert (MKb : e_mask b = Some EyeImageProps.bits_mask) by (injection Cb as <-; reflexivity). assert (MKe : e_mask e = Some EyeImageProps.bits_mask) by (injection Ce as <-; reflexivity).
  rewrite WV0, TD0 in RO. cbn [combine] in RO. inversion RO as [|? ? ? ? R1 _]; subst. pose proof (record_other 1 R1) as R2.
  destruct (bits_run a [bits_clock] bits_y bits_signal [] [] WVa eq_refl CFa TDa) as (ma & fa & COa);
    [injection C as <-; reflexivity|exact (bits_usable a FA CFa MKa)|injection C as <-; reflexivity|exact bits_period|intros w []|left; reflexivity|rewrite WVa; constructor; [exact R1|constructor]|].
  destruct (bits_run b [bits_clock] other_y other_signal [] [] WVb eq_refl CFb TDb) as (mb & fb & COb);
    [injection Cb as <-; reflexivity|exact (bits_usable b FA CFb MKb)|injection Cb as <-; reflexivity|exact bits_period|intros w []|right; reflexivity|rewrite WVb; constructor; [exact R2|constructor]|].
  destruct (bits_run e [bits_clock; bits_clock] bits_y bits_signal [(bits_t, other_y)] [other_signal] WVe eq_refl CFe TDe) as (m & f & COe);
    [injection Ce as <-; reflexivity|exact (bits_usable e FA CFe MKe)|injection Ce as <-; reflexivity|exact both_period|intros w [<-|[]]; discriminate|left; reflexivity|rewrite WVe; constructor; [exact R1|constructor; [exact R2|constructor]]|].
  exists e, a, b, m, ma, mb, f, fa, fb. split; [reflexivity|]. split; [reflexivity|]. split; [reflexivity|]. split; [exact COe|]. split; [exact COa|]. split; [exact COb|]. split; [rewrite WVe, WVa, WVb; reflexivity|].
  intros x [<-|[<-|[<-|[]]]]; (split; [apply bits_settings; assumption|]; split; [assumption|]); [rewrite CFe|rewrite CFa|rewrite CFb]; split; reflexivity.
Qed.
End Case.
Print Assumptions C82_mask_met.
Print Assumptions C82_met.
