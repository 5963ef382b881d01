(** Lemmas about the life of an eye diagram object. *)
From Coq Require Import ZArith Reals Bool List Lia Lra.
Import ListNotations.
From Verif Require Import Base Num RBool LinesModel StatsModel MaskModel EyeModel EyeSpec Pam2Model MathModel EyeImageModel EyeRunModel EyeRunSpec.
From Verif Require CdrModel.
Local Open Scope R_scope.

(** Fields no call changes, and the flag. *)
Definition same_input (e e' : eye) : Prop :=
  e_waveforms e' = e_waveforms e /\ e_clocks e' = e_clocks e /\ e_mask e' = e_mask e /\ e_resolution e' = e_resolution e /\ e_t_delta e' = e_t_delta e.
Definition framed (e e' : eye) : Prop := same_input e e' /\ e_calculated e' = e_calculated e.
Definition keeps {A} (P : eye -> eye -> Prop) (m : act A) : Prop := forall e, P e (snd (m e)).

Section Frame.
Variable P : eye -> eye -> Prop.
Hypothesis refl : forall e, P e e.
Hypothesis trans : forall a b c, P a b -> P b c -> P a c.
Lemma keeps_ret {A} (x : A) : keeps P (aret x). Proof. intros e. apply refl. Qed.
Lemma keeps_raise {A} x : keeps P (@araise A x). Proof. intros e. apply refl. Qed.
Lemma keeps_lift {A} (r : result A) : keeps P (alift r). Proof. intros e. apply refl. Qed.
Lemma keeps_read {A} (f : eye -> A) : keeps P (read f). Proof. intros e. apply refl. Qed.
Lemma keeps_update f : (forall e, P e (f e)) -> keeps P (update f). Proof. intros H e. apply H. Qed.
Lemma keeps_bind {A B} (m : act A) (f : A -> act B) : keeps P m -> (forall x, keeps P (f x)) -> keeps P (abind m f).
Proof.
  intros M F e. unfold abind. specialize (M e). destruct (m e) as [[x|x] e']; cbn [snd] in *; [|exact M]. exact (trans _ _ _ M (F x e')).
Qed.
Lemma keeps_at {A B} (m : act A) (f : A -> act B) e : P e (snd (m e)) -> (forall x, keeps P (f x)) -> P e (snd (abind m f e)).
Proof. intros M F. unfold abind. destruct (m e) as [[x|x] e']; cbn [snd] in *; [|exact M]. exact (trans _ _ _ M (F x e')). Qed.
Lemma keeps_read_bind {B} (f : eye -> act B) : (forall e0, P e0 (snd (f e0 e0))) -> keeps P (abind (read (fun e => e)) f).
Proof. intros F e. cbn. apply F. Qed.
End Frame.
Lemma framed_refl e : framed e e. Proof. repeat split. Qed.
Lemma framed_trans a b c : framed a b -> framed b c -> framed a c.
Proof. intros ((A1 & A2 & A3 & A4 & A5) & A6) ((B1 & B2 & B3 & B4 & B5) & B6). repeat split; congruence. Qed.

Section Run.
Variable round6 : R -> R.
Variable fit : nat -> list R -> result (list (R * R * R)).
Variable aic : list (R * R * R) -> list R -> R.
Variable new_cdr : R -> cdr.
Variable percentile : list R -> R -> R.
Variable cast : R -> Z.
Variable fuel : nat.
Variable draw : drawing.
Notation find_levels := (find_levels round6 fit aic).
Notation step1 := (step1_levels round6 fit aic).
Notation pam2_clock := (pam2_clock new_cdr).
Notation step2 := (step2_clock new_cdr).
Notation step4 := (step4_measure percentile).
Notation step5 := (step5_stack cast fuel draw).
Notation calculate := (calculate round6 fit aic new_cdr percentile cast fuel draw).
Notation perform := (perform round6 fit aic new_cdr percentile cast fuel draw).
Notation performs := (performs round6 fit aic new_cdr percentile cast fuel draw).

(** ** Any relation kept by all updates is kept by calculate up to the flag *)
Section Kept.
Variable P : eye -> eye -> Prop.
Hypothesis refl : forall e, P e e.
Hypothesis trans : forall a b c, P a b -> P b c -> P a c.
Hypothesis p_config : forall c e, P e (set_config c e).
Hypothesis p_levels : forall c e, P e (set_levels c e).
Hypothesis p_clock : forall a b e, e_clock_edges e = None -> P e (set_clock a b e).
Hypothesis p_t_sym : forall c e, P e (set_t_sym c e).
Hypothesis p_centers : forall c e, P e (set_centers c e).
Hypothesis p_edge_dir : forall c e, P e (set_edge_dir c e).
Hypothesis p_measures : forall c e, P e (set_measures c e).
Hypothesis p_heatmap : forall c e, P e (set_heatmap c e).
Hypothesis p_converted : forall c e, P e (set_converted c e).
Hypothesis p_hits : forall o h e, P e (set_hits o h e).
Hypothesis p_images : forall c e, P e (set_images c e).
Ltac keep := repeat first [ apply (keeps_bind P trans); [|intros ?] | apply (keeps_ret P refl) | apply (keeps_raise P refl) | apply (keeps_lift P refl) | apply (keeps_read P refl)
  | apply keeps_update; intros ?; first [apply p_config|apply p_levels|apply p_t_sym|apply p_centers|apply p_edge_dir|apply p_measures|apply p_heatmap|apply p_converted|apply p_hits|apply p_images] ].
Lemma keeps_step1 d : keeps P (step1 d). Proof. unfold step1. keep. Qed.
Lemma keeps_pam2_clock : keeps P pam2_clock.
Proof.
  unfold pam2_clock. apply keeps_read_bind. intros e. destruct (e_clock_edges e) as [l|] eqn:C; [apply refl|]. destruct (e_levels e) as [l|]; [|apply refl]. destruct (e_clocks e) as [ck|].
  - destruct (collect _ _) as [edges failed]. cbn. unfold abind, update, alift. destruct (outcome failed); apply p_clock; exact C.
  - destruct (l_low_snr l); [apply refl|]. destruct (collect _ _) as [r failed]. unfold abind, update, alift. cbn. apply trans with (set_config (with_cdr (e_config e) (match c_cdr (e_config e) with Some c => c | None => new_cdr (c_fallback_period (e_config e)) end)) e); [apply p_config|]. apply p_clock. exact C.
Qed.
Lemma keeps_base_clock d : keeps P (base_clock d).
Proof.
  unfold base_clock. apply keeps_read_bind. intros e. apply (keeps_at P trans); [|intros _].
  - destruct (e_clock_edges e) as [l|] eqn:C; [apply refl|]. destruct (collect _ _) as [edges failed]. unfold abind, update, alift. apply p_clock. exact C.
  - keep. destruct d; [|apply (keeps_ret P refl)]. match goal with |- keeps P (match ?t with _ => _ end) => destruct t end; keep.
Qed.
Lemma keeps_step2 d : keeps P (step2 d).
Proof. unfold step2. apply (keeps_bind P trans); [apply keeps_pam2_clock|intros _; apply keeps_base_clock]. Qed.
Lemma keeps_step3 : keeps P step3_sample_.
Proof. unfold step3_sample_. apply keeps_read_bind. intros e. destruct (e_t_sym e); [|apply refl]. destruct (e_clock_edges e); [|apply refl]. destruct (Reqb _ _); [apply refl|]. match goal with |- P e (snd (?m e)) => cut (keeps P m); [intros Q; apply Q|] end. keep. Qed.
Lemma keeps_step4 : keeps P step4.
Proof.
  unfold step4. apply keeps_read_bind. intros e. destruct (e_t_sym e); [|apply refl]. destruct (e_levels e) as [l|]; [|apply refl]. destruct (e_centers e); [|apply refl]. match goal with |- P e (snd (?m e)) => cut (keeps P m); [intros Q; apply Q|] end.
  destruct (c_skip_measures _); [keep|]. destruct (collect _ _) as [vs failed].
  repeat (keep; match goal with |- keeps P (let (_, _) := ?x in _) => destruct x | |- keeps P (match ?x with Some _ => _ | None => _ end) => destruct x end); keep.
Qed.
Lemma keeps_step5 : keeps P step5.
Proof.
  unfold step5. apply keeps_read_bind. intros e. destruct (e_t_sym e); [|apply refl]. destruct (e_levels e) as [l|]; [|apply refl]. destruct (e_centers e); [|apply refl]. destruct (e_measures e); [|apply refl]. match goal with |- P e (snd (?m e)) => cut (keeps P m); [intros Q; apply Q|] end.
  keep.
Qed.
Definition steps (d : bool) : act unit := abind (step1 d) (fun _ => abind (step2 d) (fun _ => abind step3_sample_ (fun _ => abind step4 (fun _ => step5)))).
Lemma keeps_steps d : keeps P (steps d).
Proof. unfold steps. apply (keeps_bind P trans); [apply keeps_step1|intros _]. apply (keeps_bind P trans); [apply keeps_step2|intros _]. apply (keeps_bind P trans); [apply keeps_step3|intros _]. apply (keeps_bind P trans); [apply keeps_step4|intros _; apply keeps_step5]. Qed.
End Kept.
Lemma abind_assoc {A B C} (m : act A) (f : A -> act B) (g : B -> act C) e : abind (abind m f) g e = abind m (fun x => abind (f x) g) e.
Proof. unfold abind. destruct (m e) as [[x|x] e']; reflexivity. Qed.
Lemma calculate_steps d e : calculate d e = match steps d e with
  | (Ok _, e1) => match e_measures e1 with Some m => (Ok m, set_calculated e1) | None => (Err AttributeError, set_calculated e1) end
  | (Err x, e1) => (Err x, e1) end.
Proof.
  unfold calculate, steps. unfold abind, update, read, aret, araise. destruct (step1 d e) as [[?|x] e1]; [|reflexivity]. destruct (step2 d e1) as [[?|x] e2]; [|reflexivity]. destruct (step3_sample_ e2) as [[?|x] e3]; [|reflexivity]. destruct (step4 e3) as [[?|x] e4]; [|reflexivity]. destruct (step5 e4) as [[[]|x] e5]; [|reflexivity]. cbn. destruct (e_measures e5); reflexivity.
Qed.

(** ** The last three steps as a function of levels, clock and configuration *)
Definition measured (w : ndarray) (mk : option (mask R)) (td : R) (c : config) (l : levels) (t : R) (centers : list (list (R * Z)))
  : result (measures * option (list (list Z)) * R * R) :=
  let ys := map snd (waves w) in
  if c_skip_measures c then Ok (Measures (count_symbols centers) (count_samples centers t td) (fun _ => 0%Z) None None None None None, None, l_zero l, l_ua l)
  else
    let '(vs, failed) := collect (fun w : list R * list (R * Z) => sample_vertical int_of_float (fst w) (snd w) td t (l_half l) (c_level_width c) (c_cross_width c)) (combine ys centers) in
    bind (outcome failed) (fun _ =>
    let v := fold_left merge vs no_vertical in
    let my := measure_y percentile (c_noise_floor c) v in
    bind (some_value (m_y_0 my)) (fun m0 => bind (some_value (m_amp my)) (fun amp =>
    let '(y_zero, y_ua, y_half) := update_levels (c_y_0 c) (c_y_1 c) (c_y_th c) m0 amp (l_zero l) (l_half l) in
    bind (some_value (m_y_cross my)) (fun y_cross =>
    bind (measure_horizontal int_of_float td t y_zero y_ua y_cross (c_time_height c) (c_edge_lower c) (c_edge_upper c) (combine (combine ys centers) (map (fun v => v_edge_dir v) vs))) (fun h =>
    bind (eye_sample_mask int_of_float mk td t y_zero y_ua (combine ys centers)) (fun mv =>
    bind (bathtub_curves int_of_float td t y_zero y_ua (combine ys centers) [1 / 2]) (fun curves =>
    let '(_, _, margin, bad) := mv in
    Ok (Measures (count_symbols centers) (count_samples centers t td) (v_transitions v) (Some my) (Some (measure_t t h))
          (match mk with Some _ => Some margin | None => None end) (match mk with Some _ => Some bad | None => None end) (Some curves),
        Some (map (fun v => v_edge_dir v) vs), y_zero, y_ua)))))))).
(** What is known of the mask: converted, offenders, hits. *)
Definition masked := (option (mask R) * list (list nat) * list (R * R))%type.
Definition e_masked (e : eye) : masked := (e_converted e, e_offenders e, e_hits e).
Definition mask_found (w : ndarray) (mk : option (mask R)) (td : R) (c : config) (t y_zero y_ua : R) (centers : list (list (R * Z))) (pr : masked) : result masked :=
  match mk with
  | Some m => if c_skip_measures c then Ok pr else
      bind (mask_convert m y_ua t) (fun mc => bind (eye_sample_mask int_of_float mk td t y_zero y_ua (combine (map snd (waves w)) centers)) (fun mv =>
      let '(offs, hs, _, _) := mv in Ok (Some mc, offs, hs)))
  | None => Ok pr
  end.
Definition pictures (w : ndarray) (res : Z) (td : R) (c : config) (t y_zero y_ua : R) (centers : list (list (R * Z))) (m : measures) (h : Z -> Z -> R) (pr : masked) : result images :=
  let '(mc, offs, hs) := pr in
  draw_images draw cast res h (c_edge_lower c) (c_edge_upper c) mc (mask_margin m) hs offs td t y_zero y_ua (combine (map snd (waves w)) centers).
Definition results (w : ndarray) (mk : option (mask R)) (res : Z) (td : R) (c : config) (l : levels) (edges : list (list R)) (t : R) (pr : masked)
  : result (measures * (Z -> Z -> R) * option (list (list Z)) * images * masked) :=
  if Reqb td 0 then Err UndefinedBehaviour else
  bind (sample_all t td edges (waves w)) (fun centers =>
  bind (measured w mk td c l t centers) (fun r =>
  let '(m, dirs, y_zero, y_ua) := r in
  bind (step5_heatmap int_of_float cast fuel td t y_zero y_ua (combine (map snd (waves w)) centers) res (c_point_cloud c) (n_sym m)) (fun h =>
  bind (mask_found w mk td c t y_zero y_ua centers pr) (fun pr' =>
  bind (pictures w res td c t y_zero y_ua centers m h pr') (fun im => Ok (m, h, dirs, im, pr')))))).
Definition rest : act unit := abind step3_sample_ (fun _ => abind step4 (fun _ => step5)).
Lemma step3_eq e t edges : e_t_sym e = Some t -> e_clock_edges e = Some edges -> Reqb (e_t_delta e) 0 = false ->
  step3_sample_ e = match sample_all t (e_t_delta e) edges (waves (e_waveforms e)) with Ok c => (Ok tt, set_centers c e) | Err x => (Err x, e) end.
Proof. intros T C D. unfold step3_sample_, abind, read. rewrite T, C, D. unfold alift, update. destruct (sample_all _ _ _ _); reflexivity. Qed.
Lemma step4_eq e t l centers : e_t_sym e = Some t -> e_levels e = Some l -> e_centers e = Some centers ->
  match measured (e_waveforms e) (e_mask e) (e_t_delta e) (e_config e) l t centers with
  | Ok (m, dirs, y_zero, y_ua) => exists e' l', step4 e = (Ok tt, e') /\ e_measures e' = Some m /\ e_levels e' = Some l' /\ l_zero l' = y_zero /\ l_ua l' = y_ua
      /\ e_edge_dir e' = (match dirs with Some d => Some d | None => e_edge_dir e end) /\ e_t_sym e' = Some t /\ e_centers e' = Some centers /\ e_config e' = e_config e
      /\ mask_found (e_waveforms e) (e_mask e) (e_t_delta e) (e_config e) t y_zero y_ua centers (e_masked e) = Ok (e_masked e')
  | Err x => exists e', step4 e = (Err x, e')
  end.
Proof.
  intros T L C. unfold measured, mask_found, step4, abind, update, alift, read, aret. rewrite T, L, C. destruct (c_skip_measures (e_config e)); [do 2 eexists; split; [reflexivity|]; repeat split; try assumption; destruct (e_mask e); reflexivity|].
  destruct (collect _ _) as [vs failed]. destruct (outcome failed) as [[]|x]; cbn [bind]; [|eexists; reflexivity].
  destruct (some_value (m_y_0 _)) as [m0|x]; cbn [bind]; [|eexists; reflexivity]. destruct (some_value (m_amp _)) as [amp|x]; cbn [bind]; [|eexists; reflexivity].
  destruct (update_levels _ _ _ _ _ _ _) as [[y_zero y_ua] y_half]. destruct (some_value (m_y_cross _)) as [yc|x]; cbn [bind]; [|eexists; reflexivity].
  destruct (measure_horizontal _ _ _ _ _ _ _ _ _ _) as [h|x]; cbn [bind]; [|eexists; reflexivity]. destruct (e_mask e) as [mk|].
  - cbn [eye_sample_mask]. destruct (mask_convert mk y_ua t) as [mc|x] eqn:MC; cbn [bind]; [|eexists; reflexivity]. match goal with |- context [bind ?a _] => change a with (mapM (mask_adjusted mc) margins) end.
    destruct (bind (mapM (mask_adjusted mc) margins) _) as [[[[offs hs] margin] bad]|x] eqn:SM; cbn [bind]; [|eexists; reflexivity].
    destruct (bathtub_curves _ _ _ _ _ _ _) as [curves|x]; cbn [bind]; [|eexists; reflexivity]. do 2 eexists. split; [reflexivity|]. split; [reflexivity|]. split; [reflexivity|]. repeat (split; [first [reflexivity | assumption]|]). rewrite MC. cbn [bind]. rewrite SM. reflexivity.
  - cbn [eye_sample_mask bind]. destruct (bathtub_curves _ _ _ _ _ _ _) as [curves|x]; cbn [bind]; [|eexists; reflexivity]. do 2 eexists. split; [reflexivity|]. split; [reflexivity|]. split; [reflexivity|]. repeat (split; [first [reflexivity | assumption]|]). reflexivity.
Qed.
Lemma step5_eq e t l centers m : e_t_sym e = Some t -> e_levels e = Some l -> e_centers e = Some centers -> e_measures e = Some m ->
  match bind (step5_heatmap int_of_float cast fuel (e_t_delta e) t (l_zero l) (l_ua l) (combine (map snd (waves (e_waveforms e))) centers) (e_resolution e) (c_point_cloud (e_config e)) (n_sym m)) (fun h =>
    bind (pictures (e_waveforms e) (e_resolution e) (e_t_delta e) (e_config e) t (l_zero l) (l_ua l) centers m h (e_masked e)) (fun im => Ok (h, im))) with
  | Ok (h, im) => step5 e = (Ok tt, set_images im (set_heatmap h e))
  | Err x => exists e', step5 e = (Err x, e')
  end.
Proof.
  intros T L C M. unfold step5, abind, update, alift, read. rewrite T, L, C, M. destruct (step5_heatmap _ _ _ _ _ _ _ _ _ _ _) as [h|x]; cbn [bind]; [|eexists; reflexivity].
  unfold pictures, e_masked. destruct (draw_images _ _ _ _ _ _ _ _ _ _ _ _ _ _ _) as [im|x]; cbn [bind]; [reflexivity|eexists; reflexivity].
Qed.
Lemma input_step4 e : same_input e (snd (step4 e)) /\ e_calculated (snd (step4 e)) = e_calculated e /\ e_clock_edges (snd (step4 e)) = e_clock_edges e.
Proof.
  apply (keeps_step4 (fun a b => same_input a b /\ e_calculated b = e_calculated a /\ e_clock_edges b = e_clock_edges a)); try (intros; repeat split; fail).
  intros a b c ((A1 & A2 & A3 & A4 & A5) & A6 & A7) ((B1 & B2 & B3 & B4 & B5) & B6 & B7). repeat split; congruence.
Qed.
Lemma rest_eq e t l edges : e_t_sym e = Some t -> e_levels e = Some l -> e_clock_edges e = Some edges ->
  match results (e_waveforms e) (e_mask e) (e_resolution e) (e_t_delta e) (e_config e) l edges t (e_masked e) with
  | Ok (m, h, dirs, im, pr) => exists e', rest e = (Ok tt, e') /\ e_measures e' = Some m /\ e_heatmap e' = h /\ e_images e' = Some im /\ e_masked e' = pr
      /\ e_edge_dir e' = (match dirs with Some d => Some d | None => e_edge_dir e end) /\ e_clock_edges e' = Some edges /\ same_input e e' /\ e_calculated e' = e_calculated e /\ e_config e' = e_config e
  | Err x => exists e', rest e = (Err x, e')
  end.
Proof.
  intros T L C. unfold results, rest. destruct (Reqb (e_t_delta e) 0) eqn:D.
  { unfold step3_sample_, abind, read. rewrite T, C, D. eexists. reflexivity. }
  assert (RE : forall f : unit -> act unit, abind step3_sample_ f e = match sample_all t (e_t_delta e) edges (waves (e_waveforms e)) with Ok c => f tt (set_centers c e) | Err x => (Err x, e) end) by (intros f; unfold abind; rewrite (step3_eq e t edges T C D); destruct (sample_all _ _ _ _); reflexivity).
  rewrite RE. clear RE. destruct (sample_all _ _ _ _) as [centers|x]; cbn [bind]; [|eexists; reflexivity].
  set (e3 := set_centers centers e). pose proof (step4_eq e3 t l centers T L eq_refl) as S4. pose proof (input_step4 e3) as I4. cbn [e_waveforms e_mask e_t_delta e_config set_centers] in S4. change (e_waveforms e3) with (e_waveforms e) in S4. change (e_mask e3) with (e_mask e) in S4. change (e_t_delta e3) with (e_t_delta e) in S4. change (e_config e3) with (e_config e) in S4.
  destruct (measured _ _ _ _ _ _ _) as [[[[m dirs] y_zero] y_ua]|x]; cbn [bind].
  2:{ destruct S4 as (e' & E). exists e'. unfold abind. rewrite E. reflexivity. }
  destruct S4 as (e4 & l' & E & M & L' & <- & <- & ED & T4 & C4 & CF & MF). change (e_masked e3) with (e_masked e) in MF. unfold abind. rewrite E. rewrite E in I4. cbn [snd] in I4. destruct I4 as ((I1 & I2 & I3 & I4 & I5) & IC & IE).
  pose proof (step5_eq e4 t l' centers m T4 L' C4 M) as S5. rewrite I1, I4, I5, CF in S5. cbn [e_waveforms e_resolution e_t_delta set_centers] in S5. change (e_waveforms e3) with (e_waveforms e) in S5. change (e_resolution e3) with (e_resolution e) in S5. change (e_t_delta e3) with (e_t_delta e) in S5.
  destruct (step5_heatmap _ _ _ _ _ _ _ _ _ _ _) as [h|x]; cbn [bind] in S5 |- *; [|exact S5]. rewrite MF. cbn [bind]. destruct (pictures _ _ _ _ _ _ _ _ _ _ _) as [im|x]; cbn [bind] in S5 |- *; [|exact S5].
  exists (set_images im (set_heatmap h e4)). split; [exact S5|]. split; [exact M|]. split; [reflexivity|]. split; [reflexivity|]. split; [reflexivity|]. split; [exact ED|]. split; [cbn [e_clock_edges set_heatmap set_images]; rewrite IE; exact C|]. split; [split; [|split; [|split; [|split]]]; cbn; assumption|]. split; [exact IC|exact CF].
Qed.

(** ** The first two steps *)
Lemma collect_ok {X Y} (f : X -> result Y) l ys : collect f l = (ys, None) <-> mapM f l = Ok ys.
Proof.
  revert ys. induction l as [|x l IH]; intros ys; cbn [collect mapM]; [split; [intros E; injection E as <-; reflexivity|intros E; injection E as <-; reflexivity]|].
  destruct (f x) as [y|e]; cbn [bind]; [|split; discriminate]. destruct (collect f l) as [ys' o] eqn:E. destruct (mapM f l) as [zs|e'] eqn:M; cbn [bind].
  - assert (C : (ys', o) = (zs, None)) by (apply IH; reflexivity). injection C as -> ->. split; intros Q; injection Q as <-; reflexivity.
  - split; [|discriminate]. intros Q. injection Q as <- ->. discriminate (proj1 (IH ys') eq_refl).
Qed.
Lemma collect_err {X Y} (f : X -> result Y) l ys x : collect f l = (ys, Some x) -> mapM f l = Err x /\ (length ys < length l)%nat.
Proof.
  revert ys. induction l as [|a l IH]; intros ys E; cbn [collect mapM] in *; [discriminate|]. destruct (f a) as [y|e]; cbn [bind]; [|injection E as <- <-; split; [reflexivity|cbn; lia]].
  destruct (collect f l) as [ys' o] eqn:C. injection E as <- ->. destruct (IH ys' eq_refl) as (M & L). rewrite M. split; [reflexivity|cbn; lia].
Qed.
Lemma collect_map {X Y Z} (f : X -> result Y) (g : Y -> Z) l : collect (fun x => bind (f x) (fun y => Ok (g y))) l = (map g (fst (collect f l)), snd (collect f l)).
Proof. induction l as [|x l IH]; [reflexivity|]. cbn [collect]. destruct (f x) as [y|e]; [|reflexivity]. cbn [bind]. rewrite IH. destruct (collect f l); reflexivity. Qed.
Notation clock_of := (clock_of new_cdr).
Definition found (e : eye) (l : levels) := collect (clock_of (e_clocks e) (e_config e) l) (clock_source (e_waveforms e) (e_clocks e)).
Lemma step1_eq d e : step1 d e = match find_levels (e_config e) (all_samples (e_waveforms e)) d with Ok l => (Ok tt, set_levels l e) | Err x => (Err x, e) end.
Proof. unfold step1, abind, read, alift, update. fold (all_samples (e_waveforms e)). destruct (find_levels _ _ _); reflexivity. Qed.
(** State after the clock has been found. *)
Definition clocked (e e' : eye) (edges : list (list R)) : Prop :=
  e_clock_edges e' = Some edges /\ e_ties e' <> None /\ e_levels e' = e_levels e /\ same_input e e' /\ e_calculated e' = e_calculated e /\ e_edge_dir e' = e_edge_dir e /\ e_masked e' = e_masked e
  /\ (e_config e' = e_config e \/ exists x, e_config e' = with_cdr (e_config e) x).
Lemma period_part (d : bool) e edges : e_clock_edges e = Some edges ->
  base_clock d e = match symbol_period edges with Ok t => (match d, e_ties e with true, None => Err TypeError | _, _ => Ok tt end, set_t_sym t e) | Err x => (Err x, e) end.
Proof. intros C. unfold base_clock, abind, read, alift, update. rewrite C. cbn [aret]. unfold aret, araise. rewrite C. destruct (symbol_period edges) as [t|x]; [|reflexivity]. destruct d; [|reflexivity]. destruct (e_ties e); reflexivity. Qed.
Lemma step2_given d e edges : e_clock_edges e = Some edges ->
  step2 d e = match symbol_period edges with Ok t => (match d, e_ties e with true, None => Err TypeError | _, _ => Ok tt end, set_t_sym t e) | Err x => (Err x, e) end.
Proof. intros C. unfold step2. unfold abind. assert (P : pam2_clock e = (Ok tt, e)) by (unfold pam2_clock, abind, read; rewrite C; reflexivity). rewrite P. apply period_part. exact C. Qed.
Lemma step2_found d e l : e_clock_edges e = None -> e_levels e = Some l ->
  match found e l with
  | (edges, None) => exists e', clocked e e' edges
      /\ step2 d e = match symbol_period edges with Ok t => (Ok tt, set_t_sym t e') | Err x => (Err x, e') end
  | (edges, Some x) => exists e', clocked e e' edges /\ step2 d e = (Err x, e')
  end.
Proof.
  intros C L. unfold found, clock_of, clock_source, step2. destruct (e_clocks e) as [ck|] eqn:K.
  - destruct (collect (selected_edges l (c_polarity (e_config e))) (waves ck)) as [edges failed] eqn:F.
    set (e1 := set_clock edges (map (fun _ => []) edges) e). assert (P : pam2_clock e = (outcome failed, e1)) by (unfold pam2_clock, abind, read, update, alift; rewrite C, L, K, F; reflexivity).
    assert (CL : clocked e e1 edges) by (repeat split; [discriminate|left; reflexivity]).
    destruct failed as [x|]; exists e1; (split; [exact CL|]); unfold abind; rewrite P; cbn [outcome]; [reflexivity|]. rewrite (period_part d e1 edges eq_refl). destruct (symbol_period edges); [destruct d; reflexivity|reflexivity].
  - destruct (l_low_snr l) eqn:LS.
    + assert (P : pam2_clock e = (Ok tt, e)) by (unfold pam2_clock, abind, read; rewrite C, L, K, LS; reflexivity).
      destruct (collect (fallback_clock (c_fallback_period (e_config e))) (waves (e_waveforms e))) as [edges failed] eqn:F. set (e1 := set_clock edges (map (fun _ => []) edges) e).
      assert (CL : clocked e e1 edges) by (repeat split; [discriminate|left; reflexivity]).
      assert (B : base_clock d e = match outcome failed with Ok _ => base_clock d e1 | Err x => (Err x, e1) end) by (unfold base_clock, abind, read, update, alift; rewrite C, F; destruct failed; reflexivity).
      destruct failed as [x|]; exists e1; (split; [exact CL|]); unfold abind; rewrite P, B; cbn [outcome]; [reflexivity|]. rewrite (period_part d e1 edges eq_refl). destruct (symbol_period edges); [destruct d; reflexivity|reflexivity].
    + rewrite collect_map. set (x0 := match c_cdr (e_config e) with Some c => c | None => new_cdr (c_fallback_period (e_config e)) end). destruct (collect (runner_cdr l (c_polarity (e_config e)) x0) (waves (e_waveforms e))) as [r failed] eqn:F. cbn [fst snd].
      set (e1 := set_clock (map fst r) (map snd r) (set_config (with_cdr (e_config e) x0) e)).
      assert (P : pam2_clock e = (outcome failed, e1)) by (unfold pam2_clock, abind, read, update, alift; rewrite C, L, K, LS; fold x0; rewrite F; reflexivity).
      assert (CL : clocked e e1 (map fst r)) by (repeat split; [discriminate|right; exists x0; reflexivity]).
      destruct failed as [x|]; exists e1; (split; [exact CL|]); unfold abind; rewrite P; cbn [outcome]; [reflexivity|]. rewrite (period_part d e1 (map fst r) eq_refl). destruct (symbol_period (map fst r)); [destruct d; reflexivity|reflexivity].
Qed.
Lemma results_cdr w mk res td c x l edges t pr : results w mk res td (with_cdr c x) l edges t pr = results w mk res td c l edges t pr.
Proof. reflexivity. Qed.
Lemma results_cfg w mk res td c c' l edges t pr : (c' = c \/ exists x, c' = with_cdr c x) -> results w mk res td c' l edges t pr = results w mk res td c l edges t pr.
Proof. intros [->|(x & ->)]; [reflexivity|apply results_cdr]. Qed.
Lemma levels_cfg c c' y d : (c' = c \/ exists x, c' = with_cdr c x) -> find_levels c' y d = find_levels c y d.
Proof. intros [->|(x & ->)]; reflexivity. Qed.

(** The clock edges used: those the object has, or those found. *)
Definition clock (e : eye) (l : levels) : result (list (list R)) :=
  match e_clock_edges e with
  | Some edges => Ok edges
  | None => mapM (clock_of (e_clocks e) (e_config e) l) (clock_source (e_waveforms e) (e_clocks e))
  end.
Lemma steps_rest d e : steps d e = abind (step1 d) (fun _ => abind (step2 d) (fun _ => rest)) e.
Proof. reflexivity. Qed.
Definition plottable (d : bool) (e : eye) : Prop := d = true -> e_clock_edges e = None \/ e_ties e <> None.
Lemma steps_eq d e l edges t : find_levels (e_config e) (all_samples (e_waveforms e)) d = Ok l -> clock e l = Ok edges -> symbol_period edges = Ok (Some t) -> plottable d e ->
  match results (e_waveforms e) (e_mask e) (e_resolution e) (e_t_delta e) (e_config e) l edges t (e_masked e) with
  | Ok (m, h, dirs, im, pr) => exists e', steps d e = (Ok tt, e') /\ e_measures e' = Some m /\ e_heatmap e' = h /\ e_images e' = Some im /\ e_masked e' = pr
      /\ e_edge_dir e' = (match dirs with Some d => Some d | None => e_edge_dir e end) /\ e_clock_edges e' = Some edges /\ same_input e e' /\ e_calculated e' = e_calculated e
      /\ (e_config e' = e_config e \/ exists x, e_config e' = with_cdr (e_config e) x)
  | Err x => exists e', steps d e = (Err x, e')
  end.
Proof.
  intros FL CK SP PL. rewrite steps_rest. unfold abind at 1 3. rewrite step1_eq, FL. set (e1 := set_levels l e).
  assert (S2 : exists e2, step2 d e1 = (Ok tt, set_t_sym (Some t) e2) /\ e_clock_edges e2 = Some edges /\ e_levels e2 = Some l /\ same_input e e2 /\ e_calculated e2 = e_calculated e /\ e_edge_dir e2 = e_edge_dir e /\ e_masked e2 = e_masked e /\ (e_config e2 = e_config e \/ exists x, e_config e2 = with_cdr (e_config e) x)).
  { unfold clock in CK. destruct (e_clock_edges e) as [ed|] eqn:CE.
    - injection CK as ->. exists e1. rewrite (step2_given d e1 edges CE), SP. split; [|repeat split; try exact CE; left; reflexivity]. unfold e1. cbn [e_ties set_levels]. destruct d; [|reflexivity]. destruct (PL eq_refl) as [Q|Q]; [congruence|]. destruct (e_ties e); [reflexivity|congruence].
    - pose proof (step2_found d e1 l CE eq_refl) as F. unfold found in F. apply collect_ok in CK. change (e_clocks e1) with (e_clocks e) in F. change (e_config e1) with (e_config e) in F. change (e_waveforms e1) with (e_waveforms e) in F. rewrite CK in F.
      destruct F as (e2 & (C1 & C2 & C3 & C4 & C5 & C6 & C8 & C7) & F). rewrite SP in F. exists e2. split; [exact F|]. split; [exact C1|]. split; [exact C3|]. split; [exact C4|]. split; [exact C5|]. split; [exact C6|split; [exact C8|exact C7]]. }
  destruct S2 as (e2 & S2 & C & L & (I1 & I2 & I3 & I4 & I5) & IC & ED & MK & CF). unfold abind. rewrite S2. pose proof (rest_eq (set_t_sym (Some t) e2) t l edges eq_refl L C) as RE.
  cbn [e_waveforms e_mask e_resolution e_t_delta e_config e_edge_dir e_calculated set_t_sym] in RE. change (e_masked (set_t_sym (Some t) e2)) with (e_masked e2) in RE. rewrite I1, I3, I4, I5, MK in RE. rewrite (results_cfg _ _ _ _ _ _ l edges t _ CF) in RE.
  destruct (results _ _ _ _ _ _ _ _ _) as [[[[[m h] dirs] im] pr]|x]; [|exact RE]. destruct RE as (e' & E & M & H & IM & PR & D & CE & (J1 & J2 & J3 & J4 & J5) & JC & JF). exists e'. split; [exact E|]. split; [exact M|]. split; [exact H|]. split; [exact IM|]. split; [exact PR|]. rewrite D, ED. split; [reflexivity|]. split; [exact CE|].
  cbn [e_waveforms e_clocks e_mask e_resolution e_t_delta set_t_sym] in J1, J2, J3, J4, J5. split; [repeat split; congruence|]. split; [congruence|]. rewrite JF. exact CF.
Qed.
Lemma steps_inv d e u e' : steps d e = (Ok u, e') -> exists l edges t, find_levels (e_config e) (all_samples (e_waveforms e)) d = Ok l /\ clock e l = Ok edges /\ symbol_period edges = Ok (Some t) /\ plottable d e.
Proof.
  rewrite steps_rest. unfold abind at 1. rewrite step1_eq. destruct (find_levels _ _ _) as [l|x]; [|discriminate]. set (e1 := set_levels l e). intros E. exists l.
  assert (S3 : forall t e0, rest (set_t_sym t e0) = (Ok u, e') -> t <> None). { intros t e0 Q N. subst t. unfold rest, step3_sample_, abind, read, araise in Q. cbn in Q. discriminate Q. }
  unfold clock, plottable. destruct (e_clock_edges e) as [ed|] eqn:CE.
  - unfold abind in E. rewrite (step2_given d e1 ed CE) in E. destruct (symbol_period ed) as [t|x] eqn:SP; [|discriminate]. destruct d; [cbn [e_ties set_levels e1] in E|].
    + change (e_ties e1) with (e_ties e) in E. destruct (e_ties e) as [ti|] eqn:TI; [|discriminate]. destruct t as [t|]; [|destruct (S3 None e1 E eq_refl)]. exists ed, t. split; [reflexivity|]. split; [reflexivity|]. split; [exact SP|]. intros _. right. discriminate.
    + destruct t as [t|]; [|destruct (S3 None e1 E eq_refl)]. exists ed, t. split; [reflexivity|]. split; [reflexivity|]. split; [exact SP|]. discriminate.
  - unfold abind in E. pose proof (step2_found d e1 l CE eq_refl) as F. destruct (found e1 l) as [edges [x|]] eqn:FD; destruct F as (e2 & CL & F); rewrite F in E; [discriminate|]. unfold found in FD. apply collect_ok in FD. destruct (symbol_period edges) as [t|x] eqn:SP; [|discriminate]. destruct t as [t|]; [|destruct (S3 None e2 E eq_refl)]. exists edges, t. split; [reflexivity|]. split; [exact FD|]. split; [exact SP|]. intros _. left. reflexivity.
Qed.

(** ** Histories *)
Lemma collect_length {X Y} (f : X -> result Y) l : (length (fst (collect f l)) <= length l)%nat.
Proof. induction l as [|x l IH]; cbn [collect]; [cbn; lia|]. destruct (f x); [|cbn; lia]. destruct (collect f l); cbn in *; lia. Qed.
Definition same_clock (a b : eye) : Prop := e_clock_edges b = e_clock_edges a /\ same_input a b /\ e_calculated b = e_calculated a.
Lemma rest_clock : keeps same_clock rest.
Proof.
  assert (T : forall a b c, same_clock a b -> same_clock b c -> same_clock a c). { intros a b c (A & (A1 & A2 & A3 & A4 & A5) & A6) (B & (B1 & B2 & B3 & B4 & B5) & B6). repeat split; congruence. }
  assert (RF : forall e, same_clock e e) by (intros; repeat split).
  unfold rest. apply (keeps_bind _ T); [apply keeps_step3|intros _; apply (keeps_bind _ T); [apply keeps_step4|intros _; apply keeps_step5]]; try exact T; try (intros; repeat split; fail).
Qed.
Lemma steps_clock d e : same_input e (snd (steps d e)) /\ e_calculated (snd (steps d e)) = e_calculated e
  /\ (e_clock_edges (snd (steps d e)) = e_clock_edges e
      \/ (e_clock_edges e = None /\ exists l, find_levels (e_config e) (all_samples (e_waveforms e)) d = Ok l /\ e_clock_edges (snd (steps d e)) = Some (fst (found e l))
         /\ (forall x, snd (found e l) = Some x -> fst (steps d e) = Err x))).
Proof.
  split; [|split].
  - apply (keeps_steps same_input); try (intros; repeat split; fail). intros a b c (A1 & A2 & A3 & A4 & A5) (B1 & B2 & B3 & B4 & B5). repeat split; congruence.
  - apply (keeps_steps (fun a b => e_calculated b = e_calculated a)); try (intros; reflexivity). intros a b c A B. congruence.
  - assert (SR : steps d e = match find_levels (e_config e) (all_samples (e_waveforms e)) d with Ok l => abind (step2 d) (fun _ => rest) (set_levels l e) | Err x => (Err x, e) end) by (rewrite steps_rest; unfold abind at 1; rewrite step1_eq; destruct (find_levels _ _ _); reflexivity).
    rewrite SR. destruct (find_levels _ _ _) as [l|x]; [|left; reflexivity]. set (e1 := set_levels l e). unfold abind. destruct (e_clock_edges e) as [ed|] eqn:C.
    + left. rewrite (step2_given d e1 ed C). destruct (symbol_period ed) as [t|x]; [|exact C].
      assert (B : forall r : result unit, e_clock_edges (snd (match r with Ok _ => rest (set_t_sym t e1) | Err x => (Err x, set_t_sym t e1) end)) = Some ed). { intros [[]|x]; [|exact C]. destruct (rest_clock (set_t_sym t e1)) as (Q & _). rewrite Q. exact C. }
      destruct d; [destruct (e_ties e1)|]; [apply (B (Ok tt))|apply (B (Err TypeError))|apply (B (Ok tt))].
    + right. split; [reflexivity|]. exists l. split; [reflexivity|]. pose proof (step2_found d e1 l C eq_refl) as F. change (found e1 l) with (found e l) in F. destruct (found e l) as [edges [x|]]; cbn [fst snd]; destruct F as (e2 & CL & F); rewrite F.
      * split; [apply CL|]. intros x0 Q. injection Q as ->. reflexivity.
      * destruct (symbol_period edges) as [t|x]; (split; [|discriminate]); [|apply CL]. destruct (rest_clock (set_t_sym t e2)) as (Q & _). rewrite Q. apply CL.
Qed.
(** What holds of an object with [n] waveforms at any time. *)
Record alive (n : nat) (e : eye) : Prop := {
  al_n : dim (e_waveforms e) 0 = n; al_pos : (1 <= n)%nat;
  al_clocks : forall c, e_clocks e = Some c -> dim c 0 = n;
  al_edges : forall l, e_clock_edges e = Some l -> (length l <= n)%nat;
  al_done : e_calculated e = true -> exists m l, e_measures e = Some m /\ e_clock_edges e = Some l /\ length l = n }.
Lemma source_length n e : alive n e -> length (clock_source (e_waveforms e) (e_clocks e)) = n.
Proof. intros [N P C _ _]. unfold clock_source. destruct (e_clocks e) as [c|]; unfold waves; rewrite map_length, seq_length; [apply C; reflexivity|exact N]. Qed.
Lemma sample_all_length t td edges ws c : sample_all t td edges ws = Ok c -> (length ws <= length edges)%nat.
Proof.
  unfold sample_all. intros E. destruct (Nat.le_gt_cases (length ws) (length edges)) as [L|L]; [exact L|exfalso].
  assert (A : exists p, In p (combine (seq 0 (length ws)) ws) /\ fst p = length edges).
  { destruct (nth_error ws (length edges)) as [w|] eqn:W; [|apply nth_error_None in W; lia]. exists (length edges, w). split; [|reflexivity]. apply (nth_error_In _ (length edges)).
    clear E. revert W L. generalize (length edges) as k. assert (G : forall k s, nth_error ws k = Some w -> nth_error (combine (seq s (length ws)) ws) k = Some ((s + k)%nat, w)). { clear. induction ws as [|x l IH]; intros k s Q; [destruct k; discriminate|]. destruct k; cbn in *; [injection Q as ->; rewrite Nat.add_0_r; reflexivity|]. rewrite (IH k (S s) Q), <- plus_n_Sm. reflexivity. }
    intros k Q _. rewrite (G k 0%nat Q). reflexivity. }
  destruct A as ([i w] & I & F). cbn in F. subst i. set (f := fun p : nat * (list R * list R) => _) in E. assert (B : exists y, f (length edges, w) = Ok y).
  { clear -E I. revert c E. induction (combine (seq 0 (length ws)) ws) as [|p l IH]; intros c E; [destruct I|]. cbn [mapM] in E. destruct (f p) as [y|] eqn:Fp; [|discriminate]. cbn [bind] in E. destruct (mapM f l) as [ys|] eqn:M; [|discriminate]. destruct I as [->|I]; [exists y; exact Fp|exact (IH I ys eq_refl)]. }
  destruct B as (y & B). unfold f in B. destruct (get (fst w) 0); [|discriminate]. cbn [bind] in B. assert (G : get edges (length edges) = Err IndexError) by (unfold get; rewrite (proj2 (nth_error_None edges (length edges)) (Nat.le_refl _)); reflexivity). rewrite G in B. discriminate B.
Qed.
Lemma results_length w mk res td c l edges t pr r : results w mk res td c l edges t pr = Ok r -> (dim w 0 <= length edges)%nat.
Proof. unfold results. destruct (Reqb td 0); [discriminate|]. destruct (sample_all _ _ _ _) as [ct|] eqn:S; [|discriminate]. intros _. apply sample_all_length in S. unfold waves in S. rewrite map_length, seq_length in S. exact S. Qed.
(** A calculate that returns. *)
(** Drawing does not depend on what was known of a mask before. *)
Lemma mask_found_again w mk td c t yz ua centers pr pr' : mask_found w mk td c t yz ua centers pr = Ok pr' -> mask_found w mk td c t yz ua centers pr' = Ok pr'.
Proof. unfold mask_found. destruct mk as [m|]; [|reflexivity]. destruct (c_skip_measures c); [reflexivity|]. intros E. exact E. Qed.
Lemma results_again w mk res td c l edges t pr m h dirs im pr' : results w mk res td c l edges t pr = Ok (m, h, dirs, im, pr') -> results w mk res td c l edges t pr' = Ok (m, h, dirs, im, pr').
Proof.
  unfold results. destruct (Reqb td 0); [discriminate|]. destruct (sample_all _ _ _ _) as [ct|]; [|discriminate]. cbn [bind]. destruct (measured _ _ _ _ _ _ _) as [[[[m' dirs'] yz] ua]|]; [|discriminate]. cbn [bind]. destruct (step5_heatmap _ _ _ _ _ _ _ _ _ _ _) as [h'|]; [|discriminate]. cbn [bind].
  destruct (mask_found _ _ _ _ _ _ _ _ pr) as [pr2|] eqn:MF; [|discriminate]. cbn [bind]. intros E. assert (Q : pr2 = pr') by (destruct (pictures _ _ _ _ _ _ _ _ _ _ _); [|discriminate]; cbn [bind] in E; congruence). subst pr2. rewrite (mask_found_again _ _ _ _ _ _ _ _ _ _ MF). exact E.
Qed.
Lemma pictures_unmasked w res td c t yz ua ct m h mc offs hs im : mask_margin m = None -> pictures w res td c t yz ua ct m h (mc, offs, hs) = Ok im ->
  mc = None /\ forall offs' hs', pictures w res td c t yz ua ct m h (None, offs', hs') = Ok im.
Proof.
  intros M. unfold pictures, draw_images. rewrite M. destruct (clean_image _ _ _) as [cl|]; [|discriminate]. cbn [bind]. destruct (draw_grid _ _ _) as [g|]; [|discriminate]. cbn [bind]. destruct mc as [mc|]; [|intros E; split; [reflexivity|intros _ _; exact E]].
  destruct (mask_paths mc) as [ps|]; [|discriminate]. cbn [bind]. destruct (draw_paths _ _ _) as [im1|]; discriminate.
Qed.
Lemma measured_margin w mk td c l t centers m dirs yz ua : measured w mk td c l t centers = Ok (m, dirs, yz, ua) ->
  mask_margin m = None <-> mk = None \/ c_skip_measures c = true.
Proof.
  unfold measured. destruct (c_skip_measures c); [intros E; injection E as <- _ _ _; split; [intros _; right; reflexivity|reflexivity]|]. destruct (collect _ _) as [vs failed]. destruct (outcome failed); [|discriminate]. cbn [bind].
  destruct (some_value (m_y_0 _)); [|discriminate]. destruct (some_value (m_amp _)); [|discriminate]. cbn [bind]. destruct (update_levels _ _ _ _ _ _ _) as [[uu1 uu2] uu3]. destruct (some_value (m_y_cross _)); [|discriminate]. cbn [bind].
  destruct (measure_horizontal _ _ _ _ _ _ _ _ _ _); [|discriminate]. cbn [bind]. destruct (eye_sample_mask _ _ _ _ _ _ _) as [[[[? ?] ?] ?]|]; [|discriminate]. cbn [bind]. destruct (bathtub_curves _ _ _ _ _ _ _); [|discriminate]. cbn [bind]. intros E. injection E as <- _ _ _. cbn [mask_margin]. destruct mk; split; [discriminate|intros [|]; discriminate|left; reflexivity|reflexivity].
Qed.
(** From any earlier knowledge of a mask the results are those from none. *)
Lemma results_fresh w mk res td c l edges t pr m h dirs im pr' offs hs : results w mk res td c l edges t pr = Ok (m, h, dirs, im, pr') ->
  exists pr2, results w mk res td c l edges t (None, offs, hs) = Ok (m, h, dirs, im, pr2).
Proof.
  unfold results. destruct (Reqb td 0); [discriminate|]. destruct (sample_all _ _ _ _) as [ct|]; [|discriminate]. cbn [bind]. destruct (measured _ _ _ _ _ _ _) as [[[[m' dirs'] yz] ua]|] eqn:ME; [|discriminate]. cbn [bind]. destruct (step5_heatmap _ _ _ _ _ _ _ _ _ _ _) as [h'|]; [|discriminate]. cbn [bind].
  pose proof (measured_margin _ _ _ _ _ _ _ _ _ _ _ ME) as MM.
  assert (UN : mask_margin m' = None -> forall prx, bind (pictures w res td c t yz ua ct m' h' prx) (fun im0 => Ok (m', h', dirs', im0, prx : masked)) = Ok (m, h, dirs, im, pr') ->
    exists pr2, bind (pictures w res td c t yz ua ct m' h' (None, offs, hs)) (fun im0 => Ok (m', h', dirs', im0, ((None, offs, hs) : masked))) = Ok (m, h, dirs, im, pr2)).
  { intros N [[mc o] x] E. destruct (pictures _ _ _ _ _ _ _ _ _ _ (mc, o, x)) as [im0|] eqn:P; [|discriminate]. cbn [bind] in E. destruct (pictures_unmasked _ _ _ _ _ _ _ _ _ _ _ _ _ _ N P) as (_ & Q). rewrite (Q offs hs). cbn [bind]. injection E as <- <- <- <- _. eexists. reflexivity. }
  unfold mask_found. destruct mk as [mk|]; [|cbn [bind]; apply UN; apply MM; left; reflexivity]. destruct (c_skip_measures c); [cbn [bind]; apply UN; apply MM; right; reflexivity|].
  destruct (mask_convert _ _ _) as [mc|]; [|discriminate]. cbn [bind]. destruct (eye_sample_mask _ _ _ _ _ _ _) as [[[[o x] ?] ?]|]; [|discriminate]. cbn [bind]. intros E. exists pr'. exact E.
Qed.
Lemma mask_found_skip w mk td c t yz ua ct pr : c_skip_measures c = true -> mask_found w mk td c t yz ua ct pr = Ok pr.
Proof. intros SK. unfold mask_found. rewrite SK. destruct mk; reflexivity. Qed.
(** A mask known from before stops a calculation without measures. *)
Lemma results_stale w mk res td c l edges t mc offs hs r : c_skip_measures c = true -> results w mk res td c l edges t (Some mc, offs, hs) <> Ok r.
Proof.
  intros SK. unfold results, measured. rewrite SK. destruct (Reqb td 0); [discriminate|]. destruct (sample_all _ _ _ _) as [ct|]; [|discriminate]. cbn [bind]. destruct (step5_heatmap _ _ _ _ _ _ _ _ _ _ _) as [h'|]; [|discriminate]. cbn [bind]. rewrite (mask_found_skip _ _ _ _ _ _ _ _ _ SK). cbn [bind]. destruct (pictures _ _ _ _ _ _ _ _ _ _ _) as [im|] eqn:P; [|discriminate].
  apply pictures_unmasked in P; [|reflexivity]. destruct P as (P & _). discriminate P.
Qed.
Lemma calculate_inv d e m e' : calculate d e = (Ok m, e') -> exists l edges t h dirs im,
  find_levels (e_config e) (all_samples (e_waveforms e)) d = Ok l /\ clock e l = Ok edges /\ symbol_period edges = Ok (Some t) /\ plottable d e
  /\ results (e_waveforms e) (e_mask e) (e_resolution e) (e_t_delta e) (e_config e) l edges t (e_masked e) = Ok (m, h, dirs, im, e_masked e')
  /\ e_measures e' = Some m /\ e_heatmap e' = h /\ e_images e' = Some im /\ e_edge_dir e' = (match dirs with Some d => Some d | None => e_edge_dir e end) /\ e_clock_edges e' = Some edges
  /\ same_input e e' /\ e_calculated e' = true /\ (e_config e' = e_config e \/ exists x, e_config e' = with_cdr (e_config e) x).
Proof.
  rewrite calculate_steps. intros E. destruct (steps d e) as [[u|x] e1] eqn:S; [|discriminate]. destruct (steps_inv d e u e1 S) as (l & edges & t & FL & CK & SP & PL). pose proof (steps_eq d e l edges t FL CK SP PL) as Q.
  exists l, edges, t. destruct (results _ _ _ _ _ _ _ _ _) as [[[[[m' h] dirs] im] pr]|x]; [|destruct Q as (e2 & Q); congruence]. destruct Q as (e2 & Q & M & H & IM & PR & D & C & IN & CA & CF). rewrite S in Q. injection Q as -> ->. rewrite M in E. injection E as <- <-.
  exists h, dirs, im. rewrite <- PR. repeat (split; [first [assumption | reflexivity]|]). exact CF.
Qed.
Lemma calculate_eq d e l edges t m h dirs im pr : find_levels (e_config e) (all_samples (e_waveforms e)) d = Ok l -> clock e l = Ok edges -> symbol_period edges = Ok (Some t) -> plottable d e ->
  results (e_waveforms e) (e_mask e) (e_resolution e) (e_t_delta e) (e_config e) l edges t (e_masked e) = Ok (m, h, dirs, im, pr) ->
  exists e', calculate d e = (Ok m, e') /\ e_measures e' = Some m /\ e_heatmap e' = h /\ e_images e' = Some im /\ e_edge_dir e' = (match dirs with Some d => Some d | None => e_edge_dir e end)
    /\ e_clock_edges e' = Some edges /\ e_calculated e' = true.
Proof.
  intros FL CK SP PL RS. pose proof (steps_eq d e l edges t FL CK SP PL) as Q. rewrite RS in Q. destruct Q as (e1 & S & M & H & IM & PR & D & C & IN & CA & CF). exists (set_calculated e1). rewrite calculate_steps, S, M. repeat (split; [first [assumption | reflexivity]|]). reflexivity.
Qed.
Lemma steps_err_calculated d e x e' : calculate d e = (Err x, e') -> e_calculated e' = e_calculated e /\ steps d e = (Err x, e').
Proof.
  rewrite calculate_steps. destruct (steps_clock d e) as (_ & CA & _). destruct (steps d e) as [[u|y] e1] eqn:S.
  - destruct (steps_inv d e u e1 S) as (l & edges & t & FL & CK & SP & PL). pose proof (steps_eq d e l edges t FL CK SP PL) as Q. rewrite S in Q. destruct (results _ _ _ _ _ _ _ _ _) as [[[[[m' h] dirs] im] pr]|z]; [|destruct Q as (e2 & Q); discriminate]. destruct Q as (e2 & Q & M & _). injection Q as -> ->. rewrite M. discriminate.
  - intros Q. injection Q as <- <-. split; [exact CA|reflexivity].
Qed.
Lemma keeps_measures d e : e_measures e <> None -> e_measures (snd (steps d e)) <> None.
Proof. apply (keeps_steps (fun a b => e_measures a <> None -> e_measures b <> None)); try (intros; assumption); try (intros; discriminate). intros a b c A B Q. exact (B (A Q)). Qed.
Lemma alive_calculate n d e r e' : alive n e -> calculate d e = (r, e') -> alive n e' /\ e_calculated e' = (match r with Ok _ => true | Err _ => e_calculated e end)
  /\ (forall l, e_clock_edges e = Some l -> e_clock_edges e' = Some l).
Proof.
  intros AL E. pose proof AL as [N P CK ED DN]. destruct r as [m|x].
  - destruct (calculate_inv d e m e' E) as (l & edges & t & h & dirs & im & FL & CL & SP & PL & RS & M & H & IM & D & C & (I1 & I2 & I3 & I4 & I5) & CA & CF).
    assert (LN : (length edges <= n)%nat). { unfold clock in CL. destruct (e_clock_edges e) as [ed|] eqn:CE; [injection CL as ->; apply ED; reflexivity|]. apply collect_ok in CL. pose proof (collect_length (clock_of (e_clocks e) (e_config e) l) (clock_source (e_waveforms e) (e_clocks e))) as Q. rewrite CL, (source_length n e AL) in Q. exact Q. }
    pose proof (results_length _ _ _ _ _ _ _ _ _ _ RS) as GE. rewrite N in GE. split; [|split; [exact CA|]].
    + constructor; [rewrite I1; exact N|exact P|rewrite I2; exact CK|rewrite C; intros ? Q; injection Q as <-; exact LN|]. intros _. exists m, edges. split; [exact M|split; [exact C|lia]].
    + intros l0 Q. rewrite C. unfold clock in CL. rewrite Q in CL. congruence.
  - destruct (steps_err_calculated d e x e' E) as (CA & S). destruct (steps_clock d e) as ((I1 & I2 & I3 & I4 & I5) & _ & CC). pose proof (keeps_measures d e) as KM. rewrite S in I1, I2, CC, KM. cbn [fst snd] in * . split; [|split; [exact CA|]].
    + constructor; [rewrite I1; exact N|exact P|rewrite I2; exact CK| |].
      * intros l0 Q. destruct CC as [CC|(_ & l & _ & CC & _)]; [apply ED; congruence|]. rewrite CC in Q. injection Q as <-. pose proof (collect_length (clock_of (e_clocks e) (e_config e) l) (clock_source (e_waveforms e) (e_clocks e))) as Q. rewrite (source_length n e AL) in Q. exact Q.
      * rewrite CA. intros Q. destruct (DN Q) as (m & l & M & C & L). destruct (e_measures e') as [m'|] eqn:M'; [|destruct (KM ltac:(congruence) eq_refl)]. exists m', l. split; [reflexivity|]. split; [|exact L]. destruct CC as [CC|(CC & _)]; congruence.
    + intros l Q. destruct CC as [CC|(CC & _)]; congruence.
Qed.
Lemma alive_perform n c e r e' : alive n e -> perform c e = (r, e') -> alive n e' /\ (succeeded r -> e_calculated e' = true) /\ (~ succeeded r -> e_calculated e' = e_calculated e)
  /\ (forall l, e_clock_edges e = Some l -> e_clock_edges e' = Some l).
Proof.
  intros AL E. destruct c as [d|f]; cbn [EyeRunModel.perform] in E.
  - destruct (calculate d e) as [q e1] eqn:C. injection E as <- <-. destruct (alive_calculate n d e q e1 AL C) as (A & CA & K). split; [exact A|]. destruct q as [m|x]; cbn [bind].
    + split; [intros _; exact CA|]. split; [intros Q; destruct Q; exists m; reflexivity|exact K].
    + split; [intros (m & Q); discriminate|]. split; [intros _; exact CA|exact K].
  - injection E as <- <-. split; [destruct AL as [N P CK ED DN]; constructor; assumption|]. split; [intros (m & Q); discriminate|]. split; [reflexivity|]. intros l Q. exact Q.
Qed.
Lemma alive_performs n cs : forall e rs e', alive n e -> performs cs e = (rs, e') -> alive n e' /\ (e_calculated e' = true <-> e_calculated e = true \/ Exists succeeded rs)
  /\ (forall l, e_clock_edges e = Some l -> e_clock_edges e' = Some l) /\ length rs = length cs.
Proof.
  induction cs as [|c cs IH]; intros e rs e' AL E; cbn [EyeRunModel.performs] in E.
  - injection E as <- <-. split; [exact AL|]. split; [split; [left; assumption|intros [Q|Q]; [exact Q|inversion Q]]|]. split; [auto|reflexivity].
  - destruct (perform c e) as [r e1] eqn:P. destruct (performs cs e1) as [rs' e2] eqn:Q. injection E as <- <-. destruct (alive_perform n c e r e1 AL P) as (A1 & S1 & N1 & K1). destruct (IH e1 rs' e2 A1 Q) as (A2 & B2 & K2 & L2).
    split; [exact A2|]. split; [|split; [intros l H; apply K2, K1, H|cbn; congruence]]. rewrite B2. split.
    + intros [H|H]; [|right; right; exact H]. assert (D : succeeded r \/ ~ succeeded r). { unfold succeeded. destruct r as [[m|]|x]; [left; exists m; reflexivity|right; intros (m & X); discriminate|right; intros (m & X); discriminate]. } destruct D as [D|D]; [right; left; exact D|left; rewrite <- (N1 D); exact H].
    + intros [H|H]; [left|inversion H as [? ? X|? ? X]; subst; [left; exact (S1 X)|right; exact X]]. assert (D : succeeded r \/ ~ succeeded r). { unfold succeeded. destruct r as [[m|]|x]; [left; exists m; reflexivity|right; intros (m & X); discriminate|right; intros (m & X); discriminate]. } destruct D as [D|D]; [exact (S1 D)|rewrite (N1 D); exact H].
Qed.
Lemma performs_app cs1 cs2 e : performs (cs1 ++ cs2) e = let '(rs1, e1) := performs cs1 e in let '(rs2, e2) := performs cs2 e1 in (rs1 ++ rs2, e2).
Proof.
  revert e. induction cs1 as [|c cs1 IH]; intros e; cbn [app EyeRunModel.performs]; [destruct (performs cs2 e); reflexivity|]. destruct (perform c e) as [r e1]. rewrite IH. destruct (performs cs1 e1) as [rs1 e2]. destruct (performs cs2 e2) as [rs2 e3]. reflexivity.
Qed.
End Run.
