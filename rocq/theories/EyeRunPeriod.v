(** The symbol period and when a calculation goes through. *)
From Coq Require Import ZArith Reals Bool List Lia Lra.
Import ListNotations.
From Verif Require Import Base Num RBool LinesModel StatsModel MaskModel DrawModel EyeModel EyeSpec EyeRProofs Pam2Model MathModel MathProofs CdrSpec CdrProofs UncertainProofs EyeImageModel EyeRunModel EyeRunSpec EyeRunProofs.
From Verif Require CdrModel.
Local Open Scope R_scope.
Local Notation rsum := StatsModel.rsum.

Lemma diff_In (l : list R) p : In p (CdrModel.diff l) <-> adjacent l p.
Proof.
  induction l as [|a l IH]; [split; [intros []|intros (k & x & y & Q & _); destruct k; discriminate]|]. destruct l as [|b l].
  - split; [intros []|intros (k & x & y & _ & Q & _); destruct k; discriminate].
  - change (In p (nsub b a :: CdrModel.diff (b :: l)) <-> adjacent (a :: b :: l) p). split.
    + intros [<-|Q]; [exists 0%nat, a, b; repeat split|]. apply IH in Q. destruct Q as (k & x & y & X & Y & E). exists (S k), x, y. repeat split; assumption.
    + intros (k & x & y & X & Y & E). destruct k as [|k]; cbn in X, Y; [left; injection X as <-; injection Y as <-; rewrite E; reflexivity|]. right. apply IH. exists k, x, y. repeat split; assumption.
Qed.
Definition periods (edges : list (list R)) : list R := concat (map CdrModel.diff edges).
Lemma periods_In edges p : In p (periods edges) <-> is_period edges p.
Proof.
  unfold periods, is_period. rewrite in_concat. split.
  - intros (d & D & P). apply in_map_iff in D. destruct D as (l & <- & L). exists l. split; [exact L|]. apply diff_In. exact P.
  - intros (l & L & P). exists (CdrModel.diff l). split; [apply in_map; exact L|apply diff_In; exact P].
Qed.
Lemma mean_rsum (l : list R) : CdrModel.mean l = rsum l / INR (length l).
Proof. rewrite mean_eq. reflexivity. Qed.
Lemma INR_pos {X} (l : list X) : l <> [] -> 0 < INR (length l).
Proof. intros N. apply lt_0_INR. destruct l; [congruence|cbn; lia]. Qed.
Lemma rsum_lt (l : list R) m : l <> [] -> (forall x, In x l -> m < x) -> m * INR (length l) < rsum l.
Proof.
  intros N H. assert (G : forall k, (forall x, In x k -> m < x) -> m * INR (length k) <= rsum k) by (induction k as [|x k IH]; intros Q; [cbn [length INR]; unfold rsum; cbn [fold_right]; lra|cbn [length]; unfold rsum; cbn [fold_right]; rewrite S_INR; specialize (Q x (or_introl eq_refl)) as Q1; specialize (IH (fun y Hy => Q y (or_intror Hy))); unfold rsum in IH; lra]).
  destruct l as [|x l]; [congruence|]. cbn [length]; unfold rsum; cbn [fold_right]. rewrite S_INR. specialize (G l (fun y Hy => H y (or_intror Hy))). specialize (H x (or_introl eq_refl)). unfold rsum in G. lra.
Qed.
Lemma below_mean (l : list R) : l <> [] -> exists x, In x l /\ x <= CdrModel.mean l.
Proof.
  intros N. pose proof (INR_pos l N) as P. destruct (Forall_Exists_dec (fun x => CdrModel.mean l < x) (fun x => Rlt_dec (CdrModel.mean l) x) l) as [F|E].
  - exfalso. pose proof (rsum_lt l (CdrModel.mean l) N (proj1 (Forall_forall _ _) F)) as Q. rewrite mean_rsum in Q. unfold Rdiv in Q. rewrite Rmult_assoc, Rinv_l in Q by lra. lra.
  - apply Exists_exists in E. destruct E as (x & I & Q). exists x. split; [exact I|lra].
Qed.
Lemma mean_pos (l : list R) : l <> [] -> (forall x, In x l -> 0 < x) -> 0 < CdrModel.mean l.
Proof. intros N H. rewrite mean_rsum. apply Rdiv_lt_0_compat; [|exact (INR_pos l N)]. pose proof (rsum_lt l 0 N H). lra. Qed.
(** The two pass average. *)
Lemma symbol_period_spec edges : edges <> [] -> periods edges <> [] -> (forall p, In p (periods edges) -> 0 < p) ->
  let m := CdrModel.mean (periods edges) in let kept := filter (fun p => Rltb p (10 * m)) (periods edges) in
  kept <> [] /\ symbol_period edges = Ok (Some (CdrModel.mean kept)) /\ 0 < CdrModel.mean kept.
Proof.
  intros NE N P m kept. assert (K : kept <> []). { destruct (below_mean _ N) as (x & I & Q). pose proof (mean_pos _ N P) as MP. intros K. assert (F : In x kept) by (apply filter_In; split; [exact I|apply Rltb_true; unfold m; lra]). rewrite K in F. destruct F. }
  split; [exact K|]. split; [|apply mean_pos; [exact K|intros x I; apply filter_In in I; apply P; apply I]].
  unfold symbol_period. destruct edges as [|e edges]; [congruence|]. fold (periods (e :: edges)). fold m. fold kept. rewrite mean_rsum. unfold usamples. destruct kept; [congruence|]. reflexivity.
Qed.
Section Through.
Variable cast : R -> Z.
Variable fuel : nat.
Lemma i_width_ok t td : 0 < t -> 0 < td -> exists w, get_i_width int_of_float t td = Ok w /\ (2 <= w)%Z.
Proof.
  intros T D. unfold get_i_width, int_of_float. cbn [bind]. eexists. split; [reflexivity|]. pose proof (Rdiv_lt_0_compat t td T D) as Q. unfold truncR. cbn. destruct (Rltb (t / td + / 2) 0) eqn:L; [apply Rltb_true in L; lra|].
  destruct (base_Int_part (t / td + / 2)) as (A & B). assert (0 <= Int_part (t / td + / 2))%Z; [|lia]. apply Z.lt_succ_r. apply lt_IZR. rewrite succ_IZR. lra.
Qed.
Lemma window_axis_ok w (t td : R) : (2 <= w)%Z -> exists t0, window_axis w t td = Ok t0.
Proof. intros W. unfold window_axis. destruct (Z.ltb_spec (w * 2 + 1) 0); [lia|]. eexists. reflexivity. Qed.
Lemma foldM_total {X Y} (f : X -> Y -> result X) l : (forall x y, exists z, f x y = Ok z) -> forall a, exists z, foldM f a l = Ok z.
Proof. intros H. induction l as [|y l IH]; intros a; cbn [foldM]; [eexists; reflexivity|]. destruct (H a y) as (z & ->). cbn [bind]. apply IH. Qed.
Lemma mapM_total {X Y} (f : X -> result Y) l : (forall x, In x l -> exists y, f x = Ok y) -> exists ys, mapM f l = Ok ys.
Proof. induction l as [|x l IH]; intros H; cbn [mapM]; [eexists; reflexivity|]. destruct (H x (or_introl eq_refl)) as (y & ->). cbn [bind]. destruct (IH (fun z Hz => H z (or_intror Hz))) as (ys & ->). eexists. reflexivity. Qed.
Lemma step3_total t td tz n edges : 0 < t -> 0 < td -> exists s, step3_sample int_of_float float_mod t td tz n edges = Ok s.
Proof.
  intros T D. unfold step3_sample. destruct (i_width_ok t td T D) as (w & -> & _). cbn [bind]. apply foldM_total. intros x y. unfold sample_edge, int_of_float. cbn [bind]. destruct (_ || _); eexists; reflexivity.
Qed.
Lemma sample_all_total t td edges ws : 0 < t -> 0 < td -> (length ws <= length edges)%nat -> (forall w, In w ws -> fst w <> []) -> exists c, sample_all t td edges ws = Ok c.
Proof.
  intros T D L F. unfold sample_all. apply mapM_total. intros [i w] I. pose proof (in_combine_l _ _ _ _ I) as I1. pose proof (in_combine_r _ _ _ _ I) as I2. apply in_seq in I1. specialize (F w I2). destruct (fst w) as [|tz l]; [congruence|]. cbn [get nth_error bind].
  assert (G : exists eg, get edges i = Ok eg). { unfold get. destruct (nth_error edges i) as [eg|] eqn:Q; [exists eg; reflexivity|]. apply nth_error_None in Q. lia. } destruct G as (eg & ->). cbn [bind]. apply step3_total; assumption.
Qed.
Lemma cloud_total t td y0 ua ws res n : 0 < t -> 0 < td -> exists h, step5_heatmap int_of_float cast fuel td t y0 ua ws res true n = Ok h.
Proof.
  intros T D. unfold step5_heatmap. match goal with |- context [foldM ?f ?z ws] => destruct (foldM_total f ws) with (a := z) as (g & ->) end; [|cbn [bind]; eexists; reflexivity].
  intros g w. unfold stack. destruct (i_width_ok t td T D) as (iw & -> & W). cbn [bind]. destruct (window_axis_ok iw t td W) as (t0 & ->). cbn [bind]. apply foldM_total. intros g' s. destruct (window_fb _ _ _ _ _) as [a b]. eexists. reflexivity.
Qed.
Lemma draw_stroke_ok res im s : (1 <= res)%Z -> - (1 / 2) <= level s < 3 / 2 -> exists im', draw_stroke res im s = Ok im'.
Proof.
  intros P (A & B). unfold draw_stroke, uia_to_image_list, uia_to_image, int_of_float. cbn [bind]. change ((level s +. nhalf) /. nofZ 2 *. nofZ res)%num with ((level s + / 2) / 2 * IZR res).
  assert (RP : 1 <= IZR res) by (apply IZR_le; exact P). set (x := (level s + / 2) / 2 * IZR res). assert (X : 0 <= x < IZR res) by (unfold x; split; [apply Rmult_le_pos; lra|rewrite <- (Rmult_1_l (IZR res)) at 2; apply Rmult_lt_compat_r; lra]).
  unfold truncR. destruct (Rltb x 0) eqn:L; [apply Rltb_true in L; lra|]. destruct (base_Int_part x) as (I1 & I2). assert (LT : (Int_part x < res)%Z) by (apply lt_IZR; lra).
  destruct ((0 <=? Int_part x)%Z && (Int_part x <=? res)%Z); cbn [existsb]; [|eexists; reflexivity]. destruct (Z.leb_spec res (Int_part x)); [lia|eexists; reflexivity].
Qed.
Lemma foldM_in {X Y} (f : X -> Y -> result X) l : (forall x y, In y l -> exists z, f x y = Ok z) -> forall a, exists z, foldM f a l = Ok z.
Proof. induction l as [|y l IH]; intros H a; cbn [foldM]; [eexists; reflexivity|]. destruct (H a y (or_introl eq_refl)) as (z & ->). cbn [bind]. apply IH. intros x u I. apply H. right. exact I. Qed.
Lemma grid_ok res el eu : (1 <= res)%Z -> - (1 / 2) <= el < 3 / 2 -> - (1 / 2) <= eu < 3 / 2 -> exists u, draw_grid res el eu = Ok u.
Proof. intros P L U. apply foldM_in. intros x s I. apply draw_stroke_ok; [exact P|]. unfold grid_strokes in I. cbn [app flat_map] in I. repeat (destruct I as [<-|I]; [cbn [level]; first [assumption | lra]|]). destruct I. Qed.
Lemma images_ok draw res h el eu margin hits offs td t yz ua ws : (1 <= res)%Z -> - (1 / 2) <= el < 3 / 2 -> - (1 / 2) <= eu < 3 / 2 ->
  exists im, draw_images draw cast res h el eu None margin hits offs td t yz ua ws = Ok im.
Proof. intros P L U. unfold draw_images, clean_image. destruct (Z.eqb_spec res 0); [lia|]. cbn [bind]. destruct (grid_ok res el eu P L U) as (g & ->). eexists. reflexivity. Qed.
End Through.
