From Coq Require Import List ZArith Bool Lia Sorted Reals Lra.
Import ListNotations.
From Verif Require Import Base Num RBool LinesModel LinesCyModel LinesSpec LinesProofs LinesCyProofs LinesHitsProofs
  StatsModel StatsProofs MaskModel MaskProofs DrawModel EyeModel EyeSpec.
Local Open Scope num_scope.
Local Open Scope result_scope.

(** *** Slices *)
Lemma nth_error_skipn' {X} (l : list X) : forall i k, nth_error (skipn i l) k = nth_error l (i + k).
Proof.
  induction l as [|x l IH]; intros i k.
  - rewrite skipn_nil. destruct k, i; reflexivity.
  - destruct i; [reflexivity|]. cbn. apply IH.
Qed.
Lemma nth_error_firstn' {X} (l : list X) : forall i k, (k < i)%nat -> nth_error (firstn i l) k = nth_error l k.
Proof.
  induction l as [|x l IH]; intros i k Hk.
  - rewrite firstn_nil. reflexivity.
  - destruct i; [lia|]. destruct k; [reflexivity|]. cbn. apply IH. lia.
Qed.

Lemma pyslice_inside {X} (l : list X) lo hi : (0 <= lo <= hi)%Z -> (hi <= Z.of_nat (length l))%Z ->
  pyslice l lo hi = firstn (Z.to_nat (hi - lo)) (skipn (Z.to_nat lo) l).
Proof.
  intros H1 H2. unfold pyslice, slice_index.
  destruct (Z.ltb_spec lo 0); [lia|]. destruct (Z.ltb_spec hi 0); [lia|].
  rewrite !Z.min_l by lia. reflexivity.
Qed.
Lemma pyslice_length {X} (l : list X) lo hi : (0 <= lo <= hi)%Z -> (hi <= Z.of_nat (length l))%Z ->
  length (pyslice l lo hi) = Z.to_nat (hi - lo).
Proof. intros H1 H2. rewrite pyslice_inside by assumption. rewrite firstn_length, skipn_length. lia. Qed.
Lemma pyslice_nth {X} (l : list X) lo hi k : (0 <= lo <= hi)%Z -> (hi <= Z.of_nat (length l))%Z ->
  (k < Z.to_nat (hi - lo))%nat -> nth_error (pyslice l lo hi) k = nth_error l (Z.to_nat lo + k).
Proof.
  intros H1 H2 Hk. rewrite pyslice_inside by assumption.
  rewrite nth_error_firstn' by exact Hk. apply nth_error_skipn'.
Qed.

Lemma list_eq_nth {X} (l l' : list X) : length l = length l' ->
  (forall i, (i < length l)%nat -> nth_error l i = nth_error l' i) -> l = l'.
Proof.
  revert l'. induction l as [|a l IH]; intros [|b l'] Hl Hn; cbn in Hl; try discriminate; [reflexivity|].
  pose proof (Hn O ltac:(cbn; lia)) as H0. cbn in H0. injection H0 as ->. f_equal. apply IH; [lia|].
  intros i Hi. exact (Hn (S i) ltac:(cbn; lia)).
Qed.

Lemma skipn_S_tl {X} (l : list X) : forall n, skipn (S n) l = tl (skipn n l).
Proof.
  induction l as [|x l IH]; intros n; [destruct n; reflexivity|].
  destruct n; [reflexivity|]. cbn [skipn]. rewrite <- IH. reflexivity.
Qed.

Lemma mapM_seq_nth {X} (l : list X) (c : Z) n : (0 <= c)%Z -> (c + Z.of_nat n <= Z.of_nat (length l))%Z ->
  mapM (fun ii => cget l (c + Z.of_nat ii)%Z) (seq 0 n) = Ok (firstn n (skipn (Z.to_nat c) l)).
Proof.
  intros Hc Hn. 
  assert (G : forall k b, (c + Z.of_nat (b + k) <= Z.of_nat (length l))%Z ->
     mapM (fun ii => cget l (c + Z.of_nat ii)%Z) (seq b k) = Ok (firstn k (skipn (Z.to_nat c + b) l))).
  { induction k as [|k IH]; intros b Hb; cbn [seq mapM]; [reflexivity|].
    unfold cget at 1. destruct (Z.leb_spec 0 (c + Z.of_nat b)); [|lia].
    replace (Z.to_nat (c + Z.of_nat b)) with (Z.to_nat c + b)%nat by lia.
    destruct (nth_error l (Z.to_nat c + b)) as [x|] eqn:E; [|apply nth_error_None in E; lia].
    rewrite IH by lia. replace (Z.to_nat c + S b)%nat with (S (Z.to_nat c + b)) by lia.
    destruct (skipn (Z.to_nat c + b) l) as [|x' r] eqn:Es.
    - pose proof (nth_error_skipn' l (Z.to_nat c + b) 0) as Q. rewrite Es in Q.
      rewrite Nat.add_0_r, E in Q. discriminate.
    - pose proof (nth_error_skipn' l (Z.to_nat c + b) 0) as Q. rewrite Es in Q.
      rewrite Nat.add_0_r, E in Q. cbn in Q. injection Q as ->.
      assert (Er : skipn (S (Z.to_nat c + b)) l = r).
      { rewrite skipn_S_tl, Es. reflexivity. }
      rewrite Er. reflexivity. }
  rewrite (G n O) by lia. rewrite Nat.add_0_r. reflexivity.
Qed.

Lemma nth_lt {X} (l : list X) k : (k < length l)%nat -> exists m, nth_error l k = Some m.
Proof. intros Hk. destruct (nth_error l k) as [m|] eqn:E; [exists m; reflexivity|apply nth_error_None in E; lia]. Qed.

Section Generic.
Context {A : Type} `{Num A}.
Variable trunc : A -> result Z.
Variable pymod : A -> A -> A.

Lemma linspace_length (a b : A) n : length (linspace a b n) = n.
Proof.
  destruct n as [|[|k]]; [reflexivity|reflexivity|]. cbn [linspace].
  rewrite app_length, map_length, seq_length. cbn. lia.
Qed.

Lemma window_axis_length w (t_sym t_delta : A) t0 : window_axis w t_sym t_delta = Ok t0 ->
  (0 <= w * 2 + 1)%Z /\ length t0 = Z.to_nat (w * 2 + 1).
Proof.
  unfold window_axis. cbv zeta. destruct (Z.ltb_spec (w * 2 + 1) 0); [discriminate|].
  intros E. injection E as <-. split; [lia|]. apply linspace_length.
Qed.

(** Which edges become symbols. *)
Lemma sample_edges_filter w max_i (t_zero t_delta : A) edges : forall acc syms,
  foldM (sample_edge trunc pymod w max_i t_zero t_delta) acc edges = Ok syms ->
  exists idx, (forall b, In b edges ->
      trunc ((b -. t_zero -. pymod b t_delta) /. t_delta +. nhalf) = Ok (idx b)) /\
    syms = acc ++ map (fun b => (neg (pymod b t_delta), idx b)) (filter (fun b => fits w max_i (idx b)) edges).
Proof.
  set (f := fun b => trunc ((b -. t_zero -. pymod b t_delta) /. t_delta +. nhalf)).
  set (idx := fun b => match f b with Ok z => z | Err _ => 0%Z end).
  intros acc syms E. exists idx. revert acc E. induction edges as [|b edges IH]; intros acc E; cbn [foldM] in E.
  - injection E as <-. split; [intros b []|]. cbn. rewrite app_nil_r. reflexivity.
  - destruct (sample_edge trunc pymod w max_i t_zero t_delta acc b) as [acc'|] eqn:Es; [|discriminate].
    unfold sample_edge in Es. cbv zeta in Es. apply bind_ok in Es. destruct Es as (ci & Ec & Es).
    fold (f b) in Ec. assert (Eb : idx b = ci) by (unfold idx; rewrite Ec; reflexivity).
    destruct (IH acc' E) as (H1 & H2). split.
    + intros b' [<-|Hb]; [fold (f b); rewrite Eb; exact Ec|apply H1; exact Hb].
    + cbn [filter]. unfold fits at 1. rewrite Eb.
      assert (Ef : ((0 <=? ci - w) && (ci + w <? max_i))%Z = negb ((ci - w <? 0)%Z || (max_i <=? ci + w)%Z)).
      { rewrite negb_orb, <- Z.leb_antisym, <- Z.ltb_antisym. reflexivity. }
      rewrite Ef. destruct ((ci - w <? 0)%Z || (max_i <=? ci + w)%Z); injection Es as <-; cbn [negb map].
      * exact H2.
      * rewrite H2, <- app_assoc. cbn. rewrite Eb. reflexivity.
Qed.

Lemma step3_inside (t_sym t_delta t_zero : A) max_i edges syms w :
  step3_sample trunc pymod t_sym t_delta t_zero max_i edges = Ok syms ->
  get_i_width trunc t_sym t_delta = Ok w ->
  forall s, In s syms -> (0 <= snd s - w /\ snd s + w < max_i)%Z.
Proof.
  intros E Ew s Hs. unfold step3_sample in E. rewrite Ew in E. cbn [bind] in E.
  destruct (sample_edges_filter _ _ _ _ _ _ _ E) as (idx & _ & ->).
  cbn in Hs. apply in_map_iff in Hs. destruct Hs as (b & <- & Hb). apply filter_In in Hb.
  destruct Hb as [_ Hb]. unfold fits in Hb. apply andb_true_iff in Hb. cbn.
  rewrite Z.leb_le, Z.ltb_lt in Hb. exact Hb.
Qed.

Lemma step3_filter (t_sym t_delta t_zero : A) max_i edges syms w :
  step3_sample trunc pymod t_sym t_delta t_zero max_i edges = Ok syms ->
  get_i_width trunc t_sym t_delta = Ok w ->
  exists idx, (forall b, In b edges ->
      trunc ((b -. t_zero -. pymod b t_delta) /. t_delta +. nhalf) = Ok (idx b)) /\
    syms = map (fun b => (neg (pymod b t_delta), idx b)) (filter (fun b => fits w max_i (idx b)) edges).
Proof.
  intros E Ew. unfold step3_sample in E. rewrite Ew in E. cbn [bind] in E.
  destruct (sample_edges_filter _ _ _ _ _ _ _ E) as (idx & H1 & H2). exists idx. split; assumption.
Qed.

(** A window that fits: fallback and compiled code see the same samples. *)
Lemma window_agree (t0 y : list A) w t_sym s : (0 <= w * 2 + 1)%Z -> length t0 = Z.to_nat (w * 2 + 1) ->
  (0 <= snd s - w /\ snd s + w < Z.of_nat (length y))%Z ->
  window_c t0 y w t_sym s = Ok (window_fb t0 y w t_sym s) /\
  length (fst (window_fb t0 y w t_sym s)) = length t0 /\
  length (snd (window_fb t0 y w t_sym s)) = length t0 /\
  (forall k, (k < length t0)%nat ->
     nth_error (snd (window_fb t0 y w t_sym s)) k = nth_error y (Z.to_nat (snd s - w) + k)).
Proof.
  intros Hw Ht [H1 H2]. unfold window_c, window_fb. cbn [fst snd].
  rewrite mapM_seq_nth by (rewrite ?Ht; lia). cbn [bind].
  assert (Hn : (snd s + w + 1 - (snd s - w))%Z = (w * 2 + 1)%Z) by lia.
  split; [|split; [|split]].
  - rewrite pyslice_inside by lia. rewrite Hn, Ht. reflexivity.
  - apply map_length.
  - rewrite pyslice_length by lia. rewrite Hn, Ht. reflexivity.
  - intros k Hk. apply pyslice_nth; [lia|lia|]. rewrite Hn, <- Ht. exact Hk.
Qed.

Lemma normalise_length (y : list A) z u : length (normalise_y y z u) = length y.
Proof. apply map_length. Qed.

(** *** The margin search *)
Lemma is_hitting_touches (t y : list A) m h : hits t y m = Ok h ->
  is_hitting t y m = Ok (match h with [] => false | _ => true end).
Proof. intros E. pose proof (@hits_is_hitting A _ t y m) as Q. rewrite E in Q. exact Q. Qed.

(** The loop stops at the first mask from [i] on that is not hit. *)
Lemma margin_loop_spec (hitting : nat -> result bool) (hit : nat -> bool) n : 
  (forall k, (k < n)%nat -> hitting k = Ok (hit k)) ->
  forall fuel i, (n - i < fuel)%nat -> exists j, margin_loop fuel hitting n i = Ok j /\ (i <= j)%nat /\
    (forall k, (i <= k < j)%nat -> (k < n)%nat /\ hit k = true) /\
    ((j < n)%nat -> hit j = false).
Proof.
  intros Hh. induction fuel as [|fuel IH]; intros i Hf; [lia|].
  cbn [margin_loop]. destruct (Nat.ltb_spec i n) as [Hi|Hi].
  - rewrite (Hh i Hi). cbn [bind]. destruct (hit i) eqn:E.
    + destruct (IH (S i) ltac:(lia)) as (j & Hj & Hij & H1 & H2). exists j. split; [exact Hj|].
      split; [lia|]. split; [|exact H2]. intros k Hk.
      destruct (Nat.eq_dec k i) as [->|]; [auto|]. apply H1. lia.
    + exists i. split; [reflexivity|]. split; [lia|]. split; [intros; lia|intros _; exact E].
  - exists i. split; [reflexivity|]. split; [lia|]. split; [intros; lia|intros; lia].
Qed.

Lemma filter_exactly (P : @symbol A -> bool) syms : forall i,
  StronglySorted lt (map fst (filter (fun js => P (snd js)) (combine (seq i (length syms)) syms))) /\
  forall j, In j (map fst (filter (fun js => P (snd js)) (combine (seq i (length syms)) syms))) <->
    (i <= j)%nat /\ exists s, nth_error syms (j - i) = Some s /\ P s = true.
Proof.
  induction syms as [|s syms IH]; intros i.
  - split; [constructor|]. intros j. cbn. split; [intros []|].
    intros (_ & s & E & _). destruct (j - i)%nat; discriminate.
  - destruct (IH (S i)) as [Hs Hin]. cbn [length seq combine filter]. cbn [snd].
    assert (Hin' : forall j, ((S i <= j)%nat /\ exists s, nth_error syms (j - S i) = Some s /\ P s = true) <->
       (S i <= j)%nat /\ exists s0, nth_error (s :: syms) (j - i) = Some s0 /\ P s0 = true).
    { intros j. split; intros [Hj Q]; (split; [exact Hj|]); replace (j - i)%nat with (S (j - S i)) in * by lia; exact Q. }
    destruct (P s) eqn:Ep; cbn [map fst].
    + split.
      * constructor; [exact Hs|]. apply Forall_forall. intros j Hj. apply Hin in Hj. lia.
      * intros j. cbn [In]. rewrite Hin, Hin'. split.
        -- intros [<-|[Hj Q]]; [|split; [lia|exact Q]]. split; [lia|]. exists s.
           rewrite Nat.sub_diag. split; [reflexivity|exact Ep].
        -- intros [Hj Q]. destruct (Nat.eq_dec i j) as [->|]; [left; reflexivity|right; split; [lia|exact Q]].
    + split; [exact Hs|]. intros j. rewrite Hin, Hin'. split.
      * intros [Hj Q]; split; [lia|exact Q].
      * intros [Hj Q]. destruct (Nat.eq_dec i j) as [->|]; [|split; [lia|exact Q]].
        exfalso. destruct Q as (s0 & E & Q). rewrite Nat.sub_diag in E. cbn in E. injection E as <-. congruence.
Qed.

Section Search.
Variables (t0 wave : list A) (w : Z) (t_sym : A) (masks : list (list (@path A))).
Let win := window_fb t0 wave w t_sym.
Let n := length masks.
Let points (k : nat) (s : symbol) : list (A * A) :=
  match nth_error masks k with
  | Some m => match hits (fst (win s)) (snd (win s)) m with Ok h => h | Err _ => [] end
  | None => []
  end.
Let hit (k : nat) (s : symbol) : bool := match points k s with [] => false | _ => true end.

Lemma hit_touches k s m : nth_error masks k = Some m -> testable (win s) m ->
  (hit k s = true <-> touches (win s) m).
Proof.
  intros Em (h & Eh). unfold hit, points, touches. rewrite Em, Eh. split.
  - intros Hh. exists h. split; [reflexivity|]. destruct h; [discriminate|discriminate].
  - intros (h' & Eh' & Hne). injection Eh' as <-. destruct h; [contradiction|reflexivity].
Qed.

Lemma mask_step_spec s i im offs hs : (1 <= n)%nat ->
  (forall m, In m masks -> testable (win s) m) ->
  exists im', (im <= im')%nat /\ (forall k, (im <= k < im')%nat -> (k < n)%nat /\ hit k s = true) /\
    ((im' < n)%nat -> hit im' s = false) /\
    mask_step t0 wave w t_sym masks n (i, im, offs, hs) s =
      Ok (S i, im',
          if (im' <? n / 2)%nat then offs else offs ++ (if hit (n / 2) s then [i] else []),
          if (im' <? n / 2)%nat then hs else hs ++ points (n / 2) s).
Proof.
  intros Hn Ht. unfold mask_step. fold (win s). destruct (win s) as [t y] eqn:Ew.
  assert (Hk : forall k, (k < n)%nat -> exists m h, nth_error masks k = Some m /\ hits t y m = Ok h /\ points k s = h).
  { intros k Hk. destruct (nth_error masks k) as [m|] eqn:Em; [|apply nth_error_None in Em; unfold n in Hk; lia].
    destruct (Ht m (nth_error_In _ _ Em)) as (h & Eh). exists m, h. cbn in Eh.
    unfold points. rewrite Em, Ew. cbn [fst snd]. rewrite Eh. repeat split. }
  destruct (margin_loop_spec (fun k => m <- get masks k ;; is_hitting_np t y m) (fun k => hit k s) n) with
    (fuel := S n) (i := im) as (im' & El & H1 & H2 & H3).
  { intros k Hkn. destruct (Hk k Hkn) as (m & h & Em & Eh & Ep). unfold get. rewrite Em. cbn [bind].
    unfold is_hitting_np. rewrite (is_hitting_touches t y m h Eh). unfold hit. rewrite Ep. reflexivity. }
  { lia. }
  exists im'. split; [exact H1|]. split; [exact H2|]. split; [exact H3|].
  rewrite El. cbn [bind]. destruct (Nat.ltb_spec im' (n / 2)); [reflexivity|].
  assert (Hz : (n / 2 < n)%nat) by (apply Nat.div_lt; lia).
  destruct (Hk _ Hz) as (m & h & Em & Eh & Ep). unfold get. rewrite Em. cbn [bind].
  unfold hits_np. rewrite Eh. cbn [bind]. unfold hit. rewrite Ep.
  destruct h; [rewrite !app_nil_r; reflexivity|reflexivity].
Qed.

Lemma mask_fold_spec : (1 <= n)%nat -> forall syms,
  (forall s m, In s syms -> In m masks -> testable (win s) m) ->
  (forall s, In s syms -> monotone (win s) masks) ->
  forall i im offs hs, exists im',
    foldM (mask_step t0 wave w t_sym masks n) (i, im, offs, hs) syms =
      Ok ((i + length syms)%nat, im',
          offs ++ map fst (filter (fun js => hit (n / 2) (snd js)) (combine (seq i (length syms)) syms)),
          hs ++ flat_map (points (n / 2)) syms) /\
    (im <= im')%nat /\
    (forall k, (im <= k < im')%nat -> (k < n)%nat /\ exists s, In s syms /\ hit k s = true) /\
    (forall s k, In s syms -> (im' <= k < n)%nat -> hit k s = false).
Proof.
  intros Hn syms. induction syms as [|s syms IH]; intros Ht Hm i im offs hs.
  - exists im. cbn. rewrite !app_nil_r, Nat.add_0_r. split; [reflexivity|].
    split; [lia|]. split; [intros; lia|intros s k []].
  - destruct (mask_step_spec s i im offs hs Hn) as (im1 & H1 & H2 & H3 & E1).
    { intros m Hin. apply Ht; [left; reflexivity|exact Hin]. }
    assert (Hmono : forall j k, (j <= k < n)%nat -> hit k s = true -> hit j s = true).
    { intros j k Hjk Hh.
      destruct (nth_error masks k) as [mk|] eqn:Ek; [|apply nth_error_None in Ek; unfold n in Hjk; lia].
      destruct (nth_error masks j) as [mj|] eqn:Ej; [|apply nth_error_None in Ej; unfold n in Hjk; lia].
      apply (hit_touches j s mj Ej); [apply Ht; [left; reflexivity|exact (nth_error_In _ _ Ej)]|].
      apply (Hm s (or_introl eq_refl) j k mj mk ltac:(lia) Ej Ek).
      apply (hit_touches k s mk Ek); [apply Ht; [left; reflexivity|exact (nth_error_In _ _ Ek)]|exact Hh]. }
    assert (Hclear : forall k, (im1 <= k < n)%nat -> hit k s = false).
    { intros k Hk. destruct (hit k s) eqn:Eh; [|reflexivity].
      rewrite (Hmono im1 k Hk Eh) in H3. apply H3. lia. }
    assert (Hz : (n / 2 < n)%nat) by (apply Nat.div_lt; lia).
    destruct (IH ltac:(intros; apply Ht; [right|]; assumption) ltac:(intros; apply Hm; right; assumption)
                 (S i) im1 (offs ++ (if hit (n / 2) s then [i] else [])) (hs ++ points (n / 2) s))
      as (im2 & E2 & H4 & H5 & H6).
    exists im2. split; [|split; [lia|split]].
    + cbn [foldM]. rewrite E1.
      assert (Ee : (if (im1 <? n / 2)%nat then offs else offs ++ (if hit (n / 2) s then [i] else [])) =
                    offs ++ (if hit (n / 2) s then [i] else []) /\
                   (if (im1 <? n / 2)%nat then hs else hs ++ points (n / 2) s) = hs ++ points (n / 2) s).
      { destruct (Nat.ltb_spec im1 (n / 2)) as [Hl|]; [|split; reflexivity].
        pose proof (Hclear (n / 2)%nat ltac:(lia)) as Hc. rewrite Hc. unfold hit in Hc.
        destruct (points (n / 2) s); [|discriminate]. rewrite !app_nil_r. split; reflexivity. }
      destruct Ee as [Ea Eb]. rewrite Ea, Eb, E2. f_equal. f_equal; [f_equal|].
      * f_equal. cbn. lia.
      * cbn [length seq combine filter]. cbn [snd]. rewrite <- app_assoc.
        destruct (hit (n / 2) s); reflexivity.
      * cbn [flat_map]. rewrite <- app_assoc. reflexivity.
    + intros k Hk. destruct (Nat.lt_ge_cases k im1) as [Hk1|Hk1].
      * destruct (H2 k ltac:(lia)) as [Hkn Hh]. split; [exact Hkn|]. exists s. split; [left; reflexivity|exact Hh].
      * destruct (H5 k ltac:(lia)) as [Hkn (s' & Hs' & Hh)]. split; [exact Hkn|]. exists s'. split; [right; exact Hs'|exact Hh].
    + intros s' k [<-|Hs'] Hk; [apply Hclear; lia|apply H6; assumption].
Qed.

End Search.

Definition windows (t0 waveform_y : list A) (w : Z) (t_sym y_zero y_ua : A) (symbols : list (@symbol A)) :=
  map (window_fb t0 (normalise_y waveform_y y_zero y_ua) w t_sym) symbols.

Theorem sample_mask_spec waveform_y symbols (t_delta t_sym y_zero y_ua : A) masks mgs w t0 :
  get_i_width trunc t_sym t_delta = Ok w -> window_axis w t_sym t_delta = Ok t0 ->
  length masks = length mgs -> mgs <> [] ->
  let ws := windows t0 waveform_y w t_sym y_zero y_ua symbols in
  (forall v m, In v ws -> In m masks -> testable v m) ->
  (forall v, In v ws -> monotone v masks) ->
  exists r k, sample_mask trunc waveform_y symbols t_delta t_sym y_zero y_ua masks mgs = Ok r /\
    nth_error mgs k = Some (margin r) /\
    (forall j, (j < k)%nat -> violated ws masks j) /\
    (untouched ws masks k \/ S k = length mgs /\ violated ws masks k) /\
    exactly (fun i => exists v m, nth_error ws i = Some v /\ nth_error masks (length mgs / 2) = Some m /\ touches v m)
            (offenders r) /\
    (exists hl, Forall2 (fun v h => exists m, nth_error masks (length mgs / 2) = Some m /\
                                   hits (fst v) (snd v) m = Ok h) ws hl /\
                mask_hits r = concat hl).
Proof.
  intros Ew Et0 Hlen Hne ws Ht Hm.
  set (wave := normalise_y waveform_y y_zero y_ua). set (win := window_fb t0 wave w t_sym).
  assert (Hn : (1 <= length masks)%nat) by (rewrite Hlen; destruct mgs; [contradiction|cbn; lia]).
  assert (Ht' : forall s m, In s symbols -> In m masks -> testable (win s) m).
  { intros s m Hs. apply Ht. unfold ws, windows. apply (in_map win). exact Hs. }
  assert (Hm' : forall s, In s symbols -> monotone (win s) masks).
  { intros s Hs. apply Hm. unfold ws, windows. apply (in_map win). exact Hs. }
  destruct (mask_fold_spec t0 wave w t_sym masks Hn symbols Ht' Hm' O O [] []) as (im & E & _ & H1 & H2).
  set (hit := fun k s => match match nth_error masks k with
                          | Some m => match hits (fst (win s)) (snd (win s)) m with Ok h => h | Err _ => [] end
                          | None => [] end with [] => false | _ => true end).
  assert (Hz : (length masks / 2 < length masks)%nat) by (apply Nat.div_lt; lia).
  assert (Hht : forall k s m, nth_error masks k = Some m -> In s symbols -> (hit k s = true <-> touches (win s) m)).
  { intros k s m Em Hs. apply (hit_touches t0 wave w t_sym masks k s m Em). apply Ht'; [exact Hs|exact (nth_error_In _ _ Em)]. }
  assert (Hviol : forall k, (k < im)%nat -> (k < length masks)%nat /\ violated ws masks k).
  { intros k Hk. destruct (H1 k ltac:(lia)) as (Hkn & s & Hs & Hh). split; [exact Hkn|].
    destruct (nth_lt masks k ltac:(lia)) as [m Em].
    exists m, (win s). split; [exact Em|]. split; [apply (in_map win); exact Hs|].
    apply (Hht k s m Em Hs). exact Hh. }
  assert (Hunt : (im < length masks)%nat -> untouched ws masks im).
  { intros Him. destruct (nth_lt masks im ltac:(lia)) as [m Em].
    exists m. split; [exact Em|]. intros v Hv Htv. unfold ws, windows in Hv. apply in_map_iff in Hv.
    destruct Hv as (s & <- & Hs). apply (Hht im s m Em Hs) in Htv.
    pose proof (H2 s im Hs ltac:(lia)) as Q. unfold hit in Htv. unfold win in Htv. congruence. }
  set (k := Nat.min (length mgs - 1) im).
  destruct (nth_error mgs k) as [mg|] eqn:Emg; [|apply nth_error_None in Emg; unfold k in Emg; lia].
  eexists (MaskValues _ _ mg), k. split.
  { unfold sample_mask. rewrite Ew. cbn [bind]. rewrite Et0. cbn [bind]. rewrite <- Hlen. fold wave.
    rewrite E. cbn [bind]. 
    replace (Z.min (Z.of_nat (length masks) - 1) (Z.of_nat im)) with (Z.of_nat k) by (unfold k; lia).
    rewrite getz_nat. unfold get. rewrite Emg. cbn [bind]. reflexivity. }
  cbn [margin offenders mask_hits]. split; [exact Emg|]. split.
  { intros j Hj. apply Hviol. unfold k in Hj. lia. }
  split.
  { destruct (Nat.lt_ge_cases im (length mgs)) as [Hi|Hi].
    - left. replace k with im by (unfold k; lia). apply Hunt. lia.
    - right. split; [unfold k; lia|]. apply Hviol. unfold k; lia. }
  split.
  { cbn [app]. destruct (filter_exactly (hit (length masks / 2)%nat) symbols O) as [Hs Hin]. split; [exact Hs|].
    intros i. rewrite <- Hlen. etransitivity; [apply Hin|]. rewrite Nat.sub_0_r. 
    destruct (nth_lt masks (length masks / 2) ltac:(lia)) as [m Em].
    split.
    - intros (_ & s & Es & Hh). exists (win s), m. split; [apply map_nth_error; exact Es|]. split; [exact Em|].
      apply (Hht _ s m Em (nth_error_In _ _ Es)). exact Hh.
    - intros (v & m' & Ev & Em' & Htv). split; [lia|]. rewrite Em in Em'. injection Em' as <-.
      unfold ws, windows in Ev. rewrite nth_error_map in Ev.
      destruct (nth_error symbols i) as [s|] eqn:Es; [|discriminate]. cbn in Ev. injection Ev as <-.
      exists s. split; [reflexivity|]. apply (Hht _ s m Em (nth_error_In _ _ Es)). exact Htv. }
  { rewrite <- Hlen. destruct (nth_lt masks (length masks / 2) ltac:(lia)) as [m Em].
    exists (map (fun s => match hits (fst (win s)) (snd (win s)) m with Ok h => h | Err _ => [] end) symbols).
    split.
    - unfold ws, windows. clear E H1 H2 Hviol Hunt Hht Hm Hm' Ht.
      revert Ht'. induction symbols as [|s syms IHs]; intros Ht'; cbn [map]; constructor.
      + exists m. split; [exact Em|]. destruct (Ht' s m (or_introl eq_refl) (nth_error_In _ _ Em)) as (h & Eh).
        fold wave. fold (win s). rewrite Eh. reflexivity.
      + apply IHs. intros; apply Ht'; [right|]; assumption.
    - cbn [app]. rewrite flat_map_concat_map. rewrite Em. reflexivity. }
Qed.
End Generic.

(** *** Compiled helpers *)
Section Compiled.
Context {A : Type} `{NumOrd A}.
Variable trunc : A -> result Z.

Lemma margin_loop_c_agree (t y : list A) masks : length t = length y ->
  Forall (Forall (fun p : path => p <> [])) masks ->
  forall fuel im mm, (im < length masks -> nth_error masks im = Some mm)%nat ->
  match margin_loop fuel (fun k => m <- get masks k ;; is_hitting_np t y m) (length masks) im with
  | Ok im' => exists mm', margin_loop_c fuel t y masks (length masks) im mm = Ok (im', mm') /\
                          (im' < length masks -> nth_error masks im' = Some mm')%nat
  | Err e => margin_loop_c fuel t y masks (length masks) im mm = Err e
  end.
Proof.
  intros Hl Hp. induction fuel as [|fuel IH]; intros im mm Hmm; cbn [margin_loop margin_loop_c]; [reflexivity|].
  destruct (Nat.ltb_spec im (length masks)) as [Hi|Hi].
  - specialize (Hmm Hi). unfold get. rewrite Hmm. cbn [bind]. unfold is_hitting_np.
    rewrite is_hitting_c_agree; [|exact Hl|rewrite Forall_forall in Hp; apply Hp; exact (nth_error_In _ _ Hmm)].
    destruct (is_hitting t y mm) as [[]|e]; cbn [bind].
    + destruct (Nat.ltb_spec (S im) (length masks)) as [Hs|Hs].
      * rewrite cget_get by exact Hs. destruct (nth_lt masks (S im) Hs) as [m' Em']. unfold get. rewrite Em'.
        cbn [bind]. apply IH. intros _. exact Em'.
      * apply IH. intros; lia.
    + exists mm. split; [reflexivity|]. intros _. exact Hmm.
    + reflexivity.
  - exists mm. split; [reflexivity|]. intros; lia.
Qed.

Lemma sample_mask_c_agree waveform_y symbols (t_delta t_sym y_zero y_ua : A) masks mgs :
  length masks = length mgs -> mgs <> [] -> Forall (Forall (fun p : path => p <> [])) masks ->
  (forall w s, get_i_width trunc t_sym t_delta = Ok w -> In s symbols ->
     0 <= snd s - w /\ snd s + w < Z.of_nat (length waveform_y))%Z ->
  sample_mask_c trunc waveform_y symbols t_delta t_sym y_zero y_ua masks mgs =
  sample_mask trunc waveform_y symbols t_delta t_sym y_zero y_ua masks mgs.
Proof.
  intros Hlen Hne Hp Hfit. unfold sample_mask_c, sample_mask.
  destruct (get_i_width trunc t_sym t_delta) as [w|e]; [|reflexivity]. cbn [bind].
  destruct (window_axis w t_sym t_delta) as [t0|e] eqn:Et0; [|reflexivity]. cbn [bind].
  assert (Hn : (1 <= length masks)%nat) by (rewrite Hlen; destruct mgs; [contradiction|cbn; lia]).
  rewrite <- Hlen. set (n := length masks) in * .
  assert (Hz : (n / 2 < n)%nat) by (apply Nat.div_lt; lia).
  destruct (window_axis_length _ _ _ _ Et0) as [Hw Ht0].
  rewrite cget_get by exact Hz. destruct (nth_lt masks _ Hz) as [m0 Em0]. unfold get at 1. rewrite Em0. cbn [bind].
  change 0%Z with (Z.of_nat 0). rewrite cget_get by (fold n; lia).
  destruct (nth_lt masks 0 ltac:(fold n; lia)) as [mm Emm]. unfold get at 1. rewrite Emm. cbn [bind].
  set (wave := normalise_y waveform_y y_zero y_ua).
  assert (Hwl : length wave = length waveform_y) by apply map_length.
  pose (Rel := fun (a : nat * nat * list nat * list (A * A)) (b : nat * nat * list (@path A) * list nat * list (A * A)) =>
    let '(i, im, offs, hs) := a in let '(i', im', mm', offs', hs') := b in
    i = i' /\ im = im' /\ offs = offs' /\ hs = hs' /\ ((im < n)%nat -> nth_error masks im = Some mm')).
  pose proof (foldM_sim Rel (mask_step t0 wave w t_sym masks n) (mask_step_c t0 wave w t_sym masks m0 n) symbols) as Sim.
  specialize (Sim ltac:(
    intros [[[i im] offs] hs] [[[[i' im'] mm'] offs'] hs'] s Hs (<- & <- & <- & <- & Hmm);
    destruct (window_agree t0 wave w t_sym s Hw Ht0 ltac:(rewrite Hwl; apply Hfit; [reflexivity|exact Hs])) as (Ew & Hl1 & Hl2 & _);
    unfold mask_step, mask_step_c; rewrite Ew; cbn [bind];
    destruct (window_fb t0 wave w t_sym s) as [t y]; cbn [fst snd] in Hl1, Hl2;
    pose proof (margin_loop_c_agree t y masks ltac:(congruence) Hp (S n) im mm' Hmm) as Q; fold n in Q;
    destruct (margin_loop (S n) _ n im) as [im2|e]; [destruct Q as (mm2 & -> & Hmm2)|rewrite Q; reflexivity];
    cbn [bind]; destruct (Nat.ltb_spec im2 (n / 2)); [eexists; split; [reflexivity|]; repeat split; assumption|];
    unfold get; rewrite Em0; cbn [bind];
    rewrite hits_np_c_agree by (first [congruence | rewrite Forall_forall in Hp; apply Hp; exact (nth_error_In _ _ Em0)]);
    unfold hits_np; destruct (hits t y m0) as [[|h0 h]|e]; cbn [bind]; [| |reflexivity];
    (eexists; split; [reflexivity|]; repeat split; assumption))).
  specialize (Sim (0%nat, 0%nat, [], []) (0%nat, 0%nat, mm, [], [])
                ltac:(unfold Rel; repeat split; intros _; exact Emm)).
  destruct (foldM (mask_step t0 wave w t_sym masks n) (0%nat, 0%nat, [], []) symbols) as [[[[i im] offs] hs]|e].
  - destruct Sim as ([[[[i' im'] mm'] offs'] hs'] & -> & (_ & <- & <- & <- & _)). cbn [bind].
    rewrite cget_getz by lia. reflexivity.
  - rewrite Sim. reflexivity.
Qed.

Lemma y_slice_c_agree waveform_y symbols (t_delta t_sym y_zero y_ua : A) levels :
  (forall w s, get_i_width trunc t_sym t_delta = Ok w -> In s symbols ->
     0 <= snd s - w /\ snd s + w < Z.of_nat (length waveform_y))%Z ->
  y_slice_c trunc waveform_y symbols t_delta t_sym y_zero y_ua levels =
  y_slice trunc waveform_y symbols t_delta t_sym y_zero y_ua levels.
Proof.
  intros Hfit. unfold y_slice_c, y_slice.
  destruct (get_i_width trunc t_sym t_delta) as [w|e]; [|reflexivity]. cbn [bind].
  destruct (window_axis w t_sym t_delta) as [t0|e] eqn:Et0; [|reflexivity]. cbn [bind].
  destruct (window_axis_length _ _ _ _ Et0) as [Hw Ht0].
  apply foldM_ext_in. intros slices s Hs.
  destruct (window_agree t0 (normalise_y waveform_y y_zero y_ua) w t_sym s Hw Ht0
              ltac:(rewrite normalise_length; apply Hfit; [reflexivity|exact Hs])) as (Ew & Hl1 & Hl2 & _).
  rewrite Ew. cbn [bind]. destruct (window_fb _ _ _ _ _) as [t y]. cbn [fst snd] in Hl1, Hl2.
  generalize (combine slices levels). intros l. induction l as [|sl l IH]; [reflexivity|]. cbn [mapM].
  rewrite hits_np_c_agree by (first [congruence | repeat constructor; discriminate]). rewrite IH. reflexivity.
Qed.
End Compiled.

(** *** The margin of an eye diagram *)
Section EyeMargin.
Local Open Scope R_scope.

Lemma margins_nth k : (k < 2001)%nat -> nth_error (margins (A := R)) k = Some (IZR (1000 - Z.of_nat k) / 1000).
Proof.
  intros Hk. unfold margins. rewrite nth_error_map.
  assert (E : nth_error (seq 0 2001) k = Some k).
  { rewrite (nth_error_nth' _ 0%nat) by (rewrite seq_length; exact Hk). rewrite seq_nth by exact Hk. reflexivity. }
  rewrite E. reflexivity.
Qed.
Lemma margins_length : length (margins (A := R)) = 2001%nat.
Proof. unfold margins. rewrite map_length. apply seq_length. Qed.
Lemma margins_lt j k : (j < 2001)%nat -> (k < 2001)%nat -> 
  Rltb (IZR (1000 - Z.of_nat j) / 1000) (IZR (1000 - Z.of_nat k) / 1000) = (k <? j)%nat.
Proof.
  intros Hj Hk. destruct (Nat.ltb_spec k j) as [Hl|Hl].
  - apply Rltb_true. apply Rmult_lt_compat_r; [lra|]. apply IZR_lt. lia.
  - apply Rltb_false. apply Rmult_le_compat_r; [lra|]. apply IZR_le. lia.
Qed.

Lemma mapM_length {X Y} (f : X -> result Y) l : forall l', mapM f l = Ok l' -> length l' = length l.
Proof.
  induction l as [|x l IH]; intros l' E; cbn [mapM] in E; [injection E as <-; reflexivity|].
  destruct (f x); [|discriminate]. destruct (mapM f l) as [ys|]; [|discriminate]. injection E as <-.
  cbn. f_equal. apply IH. reflexivity.
Qed.

Lemma eye_margin_spec trunc m mc paths (t_delta t_sym y_zero y_ua : R) waves w t0 :
  mask_convert m y_ua t_sym = Ok mc -> mapM (mask_adjusted mc) margins = Ok paths ->
  get_i_width trunc t_sym t_delta = Ok w -> window_axis w t_sym t_delta = Ok t0 ->
  let win := fun wv : list R * list (@symbol R) => windows t0 (fst wv) w t_sym y_zero y_ua (snd wv) in
  (forall v p, In v (flat_map win waves) -> In p paths -> testable v p) ->
  (forall v, In v (flat_map win waves) -> monotone v paths) ->
  exists offs hs mg cnt k,
    eye_sample_mask trunc (Some m) t_delta t_sym y_zero y_ua waves = Ok (offs, hs, mg, cnt) /\
    (k <= 2000)%nat /\ mg = IZR (1000 - Z.of_nat k) / 1000 /\
    (forall j, (j < k)%nat -> violated (flat_map win waves) paths j) /\
    (untouched (flat_map win waves) paths k \/ k = 2000%nat /\ violated (flat_map win waves) paths k) /\
    Forall2 (fun wv => exactly (fun i => exists v p, nth_error (win wv) i = Some v /\
                                   nth_error paths 1000 = Some p /\ touches v p)) waves offs /\
    cnt = length (concat offs) /\
    (exists hl, Forall2 (fun v h => exists p, nth_error paths 1000 = Some p /\ hits (fst v) (snd v) p = Ok h)
                  (flat_map win waves) hl /\ hs = concat hl).
Proof.
  intros Ec Ep Ew Et0 win.
  assert (Hlen : length paths = length (margins (A := R))) by (eapply mapM_length; exact Ep).
  pose proof margins_length as Hml.
  unfold eye_sample_mask. rewrite Ec. cbn [bind]. rewrite Ep. cbn [bind].
  set (step := fun (st : list (list nat) * list (R * R) * R * nat) (wv : list R * list (@symbol R)) => _).
  assert (G : forall waves, (forall v p, In v (flat_map win waves) -> In p paths -> testable v p) ->
    (forall v, In v (flat_map win waves) -> monotone v paths) ->
    forall offs0 hs0 k0 cnt0, (k0 <= 2000)%nat -> exists offs hs k,
    foldM step (offs0, hs0, IZR (1000 - Z.of_nat k0) / 1000, cnt0) waves =
      Ok (offs0 ++ offs, hs0 ++ hs, IZR (1000 - Z.of_nat k) / 1000, (cnt0 + length (concat offs))%nat) /\
    (k0 <= k <= 2000)%nat /\
    (forall j, (k0 <= j < k)%nat -> violated (flat_map win waves) paths j) /\
    (forall j, (k <= j < 2000)%nat -> untouched (flat_map win waves) paths j) /\
    (k = 2000%nat -> k = k0 \/ untouched (flat_map win waves) paths k \/ violated (flat_map win waves) paths k) /\
    (k = k0 -> untouched (flat_map win waves) paths k \/ k = 2000%nat /\ violated (flat_map win waves) paths k) /\
    Forall2 (fun wv => exactly (fun i => exists v p, nth_error (win wv) i = Some v /\
                                   nth_error paths 1000 = Some p /\ touches v p)) waves offs /\
    (exists hl, Forall2 (fun v h => exists p, nth_error paths 1000 = Some p /\ hits (fst v) (snd v) p = Ok h)
                  (flat_map win waves) hl /\ hs = concat hl)).
  2: { intros Ht Hm. destruct (G waves Ht Hm [] [] O O ltac:(lia)) as (offs & hs & k & E & Hk & H1 & H2 & H3 & H3' & H4 & H5).
       exists offs, hs, (IZR (1000 - Z.of_nat k) / 1000), (length (concat offs)), k.
       split; [|split; [lia|]].
       { replace (nofZ 1) with (IZR (1000 - Z.of_nat 0) / 1000) by (cbn; lra). exact E. }
       split; [reflexivity|]. split; [intros; apply H1; lia|]. split; [|split; [exact H4|split; [reflexivity|exact H5]]].
       destruct (Nat.eq_dec k 2000) as [->|]; [|left; apply H2; lia].
       destruct (H3 eq_refl) as [E0|[Hu|Hv]]; [discriminate E0|left; exact Hu|right; split; [reflexivity|exact Hv]]. }
  clear waves. intros waves. induction waves as [|wv waves IH]; intros Ht Hm offs0 hs0 k0 cnt0 Hk0.
  - exists [], [], k0. cbn [foldM flat_map concat length]. rewrite !app_nil_r, Nat.add_0_r.
    assert (Hu : forall j, (j < 2001)%nat -> untouched (@nil (list R * list R)) paths j).
    { intros j Hj. destruct (nth_lt paths j ltac:(lia)) as [p Ep']. exists p. split; [exact Ep'|]. intros v []. }
    split; [reflexivity|]. split; [lia|]. split; [intros; lia|]. split; [intros; apply Hu; lia|].
    split; [intros; left; reflexivity|]. split; [intros; left; apply Hu; lia|]. split; [constructor|].
    exists []. split; [constructor|reflexivity].
  - cbn [flat_map] in Ht, Hm |- * .
    destruct (sample_mask_spec trunc (fst wv) (snd wv) t_delta t_sym y_zero y_ua paths margins w t0 Ew Et0 Hlen)
      as (r & k1 & E1 & Hk1 & Hv & Hu & Hoff & hl1 & Hhl1 & Eh1).
    { intros E0. rewrite E0 in Hml. discriminate Hml. }
    { intros v p Hin. apply Ht. apply in_or_app. left. exact Hin. }
    { intros v Hin. apply Hm. apply in_or_app. left. exact Hin. }
    assert (Hk1' : (k1 < 2001)%nat) by (rewrite <- Hml; apply nth_error_Some; congruence).
    rewrite (margins_nth k1 Hk1') in Hk1. assert (Emg : IZR (1000 - Z.of_nat k1) / 1000 = margin r) by congruence. clear Hk1.
    fold (win wv) in Hv, Hu, Hoff, Hhl1. rewrite Hml in Hoff, Hhl1, Hu.
    replace (2001 / 2)%nat with 1000%nat in Hoff, Hhl1 by reflexivity.
    assert (Huall : forall j, (k1 <= j < 2000)%nat -> untouched (win wv) paths j).
    { intros j Hj. destruct (nth_lt paths j ltac:(lia)) as [p Ep']. exists p. split; [exact Ep'|].
      intros v Hin Hto. destruct Hu as [(q & Eq & Hq)|[Hq _]]; [|lia].
      apply (Hq v Hin). apply (Hm v ltac:(apply in_or_app; left; exact Hin) k1 j q p ltac:(lia) Eq Ep' Hto). }
    set (k' := Nat.max k0 k1).
    assert (Estep : step (offs0, hs0, IZR (1000 - Z.of_nat k0) / 1000, cnt0) wv =
       Ok (offs0 ++ [offenders r], hs0 ++ mask_hits r, IZR (1000 - Z.of_nat k') / 1000, (cnt0 + length (offenders r))%nat)).
    { unfold step. rewrite E1. cbn [bind]. rewrite <- Emg.
      change (nlt (IZR (1000 - Z.of_nat k1) / 1000) (IZR (1000 - Z.of_nat k0) / 1000)) with
             (Rltb (IZR (1000 - Z.of_nat k1) / 1000) (IZR (1000 - Z.of_nat k0) / 1000)).
      rewrite (margins_lt k1 k0) by lia. unfold k'. destruct (Nat.ltb_spec k0 k1).
      - rewrite Nat.max_r by lia. reflexivity.
      - rewrite Nat.max_l by lia. reflexivity. }
    destruct (IH ltac:(intros v p Hin; apply Ht; apply in_or_app; right; exact Hin)
                 ltac:(intros v Hin; apply Hm; apply in_or_app; right; exact Hin)
                 (offs0 ++ [offenders r]) (hs0 ++ mask_hits r) k' (cnt0 + length (offenders r))%nat ltac:(unfold k'; lia))
      as (offs & hs & k & E & Hk & H1 & H2 & H3 & H3' & H4 & hl & H5 & H6).
    assert (Vl : forall j, violated (win wv) paths j -> violated (win wv ++ flat_map win waves) paths j).
    { intros j (p & v & Q1 & Q2 & Q3). exists p, v. split; [exact Q1|]. split; [apply in_or_app; left; exact Q2|exact Q3]. }
    assert (Vr : forall j, violated (flat_map win waves) paths j -> violated (win wv ++ flat_map win waves) paths j).
    { intros j (p & v & Q1 & Q2 & Q3). exists p, v. split; [exact Q1|]. split; [apply in_or_app; right; exact Q2|exact Q3]. }
    assert (U : forall j, untouched (win wv) paths j -> untouched (flat_map win waves) paths j ->
                          untouched (win wv ++ flat_map win waves) paths j).
    { intros j (p & Q1 & Q2) (p' & Q1' & Q2'). exists p. split; [exact Q1|]. rewrite Q1 in Q1'. injection Q1' as <-.
      intros v Hin. apply in_app_or in Hin. destruct Hin as [Hin|Hin]; [apply Q2|apply Q2']; exact Hin. }
    exists (offenders r :: offs), (mask_hits r ++ hs), k.
    split.
    { cbn [foldM]. rewrite Estep, E. rewrite <- !app_assoc. cbn [app]. do 2 f_equal.
      cbn [concat]. rewrite app_length. lia. }
    split; [unfold k' in Hk; lia|].
    split.
    { intros j Hj. destruct (Nat.lt_ge_cases j k') as [Hj'|Hj'].
      - apply Vl. apply Hv. unfold k' in Hj'. lia.
      - apply Vr. apply H1. lia. }
    split.
    { intros j Hj. apply U; [apply Huall; unfold k' in Hk; lia|apply H2; lia]. }
    assert (Hend : k = 2000%nat -> untouched (win wv ++ flat_map win waves) paths k \/
                                   violated (win wv ++ flat_map win waves) paths k).
    { intros ->. destruct (nth_lt paths 2000 ltac:(lia)) as [p Ep'].
      assert (Hw : untouched (win wv) paths 2000 \/ violated (win wv) paths 2000).
      { destruct Hu as [Hu|[Eq Hu]].
        - left. exists p. split; [exact Ep'|]. intros v Hin Hto. destruct Hu as (q & Eq & Hq). apply (Hq v Hin).
          apply (Hm v ltac:(apply in_or_app; left; exact Hin) k1 2000%nat q p ltac:(lia) Eq Ep' Hto).
        - right. assert (k1 = 2000)%nat as -> by lia. exact Hu. }
      assert (Hr : untouched (flat_map win waves) paths 2000 \/ violated (flat_map win waves) paths 2000).
      { destruct (Nat.eq_dec 2000 k') as [Ek|Ek].
        - destruct (H3' Ek) as [Q|[_ Q]]; [left|right]; exact Q.
        - destruct (H3 eq_refl) as [Q|Q]; [congruence|exact Q]. }
      destruct Hw as [Hw|Hw]; [|right; apply Vl; exact Hw].
      destruct Hr as [Hr|Hr]; [left; apply U; assumption|right; apply Vr; exact Hr]. }
    split; [intros Ek; right; apply Hend; exact Ek|].
    split.
    { intros Ek. destruct (Nat.eq_dec k 2000) as [Ek'|Ek'].
      - destruct (Hend Ek') as [Q|Q]; [left; exact Q|right; split; assumption].
      - left. apply U; [apply Huall; unfold k' in Hk; lia|apply H2; lia]. }
    split; [constructor; [exact Hoff|exact H4]|].
    exists (hl1 ++ hl). split; [apply Forall2_app; assumption|]. rewrite Eh1, H6, concat_app. reflexivity.
Qed.
End EyeMargin.
