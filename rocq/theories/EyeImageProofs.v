(** Lemmas about the images of an eye diagram (C62). *)
From Coq Require Import ZArith Reals Bool List Lia Lra.
Import ListNotations.
From Verif Require Import Base Num RBool LinesSpec LinesModel MaskModel EyeModel EyeSpec EyeProofs EyeRProofs EyeReportSpec EyeImageModel EyeImageSpec.
From Verif Require ImageModel MaskProps.
Local Open Scope R_scope.

Lemma bind_inv {A B} (r : result A) (f : A -> result B) b : bind r f = Ok b -> exists a, r = Ok a /\ f a = Ok b.
Proof. destruct r as [a|]; [|discriminate]. intros E. exists a. split; [reflexivity|exact E]. Qed.
Lemma truncR_truncated x : truncated x (truncR x).
Proof.
  split; intros H; [apply truncR_pos in H|apply truncR_neg in H]; tauto.
Qed.
Lemma truncated_unique x p q : truncated x p -> truncated x q -> p = q.
Proof.
  intros (A & B) (C & D). destruct (Rlt_le_dec x 0) as [L|L].
  - specialize (B L). specialize (D L). assert (IZR p < IZR (q + 1) /\ IZR q < IZR (p + 1)) as (U & V) by (rewrite !plus_IZR; lra). apply lt_IZR in U, V. lia.
  - specialize (A L). specialize (C L). assert (IZR p < IZR (q + 1) /\ IZR q < IZR (p + 1)) as (U & V) by (rewrite !plus_IZR; lra). apply lt_IZR in U, V. lia.
Qed.
Lemma uia_place res u : uia_to_image int_of_float res u = Ok (truncR ((u + 1 / 2) / 2 * IZR res)).
Proof. unfold uia_to_image, int_of_float. cbn [nadd nmul ndiv nofZ nhalf NumR]. do 2 f_equal. lra. Qed.
Definition placed (res : Z) (u : R) : Z := truncR ((u + 1 / 2) / 2 * IZR res).
Lemma placed_place res u : place res u (placed res u).
Proof. apply truncR_truncated. Qed.
Lemma place_placed res u p : place res u p <-> p = placed res u.
Proof. split; [intros H; exact (truncated_unique _ _ _ H (placed_place res u))|intros ->; apply placed_place]. Qed.

(** ** Clean image *)
Lemma fold_Rmax vs : forall v, (forall x, x = v \/ In x vs -> x <= fold_left Rmax vs v) /\ (fold_left Rmax vs v = v \/ In (fold_left Rmax vs v) vs).
Proof.
  induction vs as [|y vs IH]; intros v; cbn [fold_left].
  - split; [intros x [->|[]]; lra|left; reflexivity].
  - destruct (IH (Rmax v y)) as (A & B). split.
    + intros x H. assert (Q : Rmax v y <= fold_left Rmax vs (Rmax v y)) by (apply A; left; reflexivity). destruct H as [->|[->|H]]; [eapply Rle_trans; [apply Rmax_l|exact Q]|eapply Rle_trans; [apply Rmax_r|exact Q]|apply A; right; exact H].
    + destruct B as [B|B]; [|right; right; exact B]. rewrite B. unfold Rmax. destruct (Rle_dec v y); [right; left; reflexivity|left; reflexivity].
Qed.
Lemma pixel_range_in res x : In x (pixel_range res) <-> (0 <= x < res)%Z.
Proof.
  unfold pixel_range. rewrite in_map_iff. split.
  - intros (k & <- & I). apply in_seq in I. lia.
  - intros H. exists (Z.to_nat x). split; [lia|]. apply in_seq. lia.
Qed.
Lemma heat_values res h v : In v (filter (fun v => negb (Reqb v 0)) (flat_map (fun row => map (h row) (pixel_range res)) (pixel_range res))) <->
  v <> 0 /\ exists row col, in_image res row col /\ h row col = v.
Proof.
  rewrite filter_In, in_flat_map. split.
  - intros ((row & IR & IC) & N). apply in_map_iff in IC. destruct IC as (col & E & IC). rewrite pixel_range_in in IR, IC. split; [|exists row, col; repeat split; try apply IR; try apply IC; exact E].
    intros ->. apply negb_true_iff, Reqb_false in N. apply N. reflexivity.
  - intros (N & row & col & (IR & IC) & E). split; [|apply negb_true_iff, Reqb_false; exact N]. exists row. rewrite pixel_range_in. split; [exact IR|]. apply in_map_iff. exists col. rewrite pixel_range_in. split; [exact E|exact IC].
Qed.
Lemma clean_spec draw res h im : clean_image draw res h = Ok im -> (forall row col, in_image res row col -> 0 <= h row col) ->
  forall row col, in_image res row col -> (h row col = 0 -> im row col = transparent)
    /\ (h row col <> 0 -> exists v, peak res h v /\ 0 < h row col / v <= 1 /\ im row col = jet draw (h row col / v)).
Proof.
  unfold clean_image. destruct (res =? 0)%Z; [discriminate|]. intros E P row col I. injection E as <-. unfold heat_max. set (vs := filter _ _). assert (V : forall v, In v vs <-> v <> 0 /\ exists row col, in_image res row col /\ h row col = v) by (intros v; apply heat_values). clearbody vs.
  destruct vs as [|v vs].
  - split; [reflexivity|]. intros N. assert (Q : In (h row col) []) by (apply V; split; [exact N|exists row, col; split; [exact I|reflexivity]]). destruct Q.
  - destruct (fold_Rmax vs v) as (A & B). set (m := fold_left Rmax vs v) in *  . split; [intros ->; destruct (Reqb 0 0) eqn:Q; [reflexivity|apply Reqb_false in Q; congruence]|]. intros N.
    destruct (Reqb (h row col) 0) eqn:Q; [apply Reqb_true in Q; congruence|]. clear Q. exists m.
    assert (IM : In m (v :: vs)) by (destruct B as [->|B]; [left; reflexivity|right; exact B]). apply V in IM. destruct IM as (MN & r & c & IM & ME).
    assert (LE : forall r c, in_image res r c -> h r c <= m). { intros r' c' I'. assert (MP : 0 <= m) by (rewrite <- ME; apply P; exact IM). destruct (Req_dec (h r' c') 0) as [Z|Z]; [lra|]. apply A. assert (Q : In (h r' c') (v :: vs)) by (apply V; split; [exact Z|exists r', c'; split; [exact I'|reflexivity]]). destruct Q as [<-|Q]; [left; reflexivity|right; exact Q]. }
    split; [split; [exact LE|exists r, c; split; assumption]|]. split; [|reflexivity]. pose proof (P _ _ I). pose proof (LE _ _ I). assert (0 < h row col) by lra. split; [apply Rdiv_lt_0_compat; lra|]. apply Rmult_le_reg_r with m; [lra|]. unfold Rdiv. rewrite Rmult_assoc, Rinv_l; lra.
Qed.

(** ** Grid *)
Definition stroked (res : Z) (x y : Z) (s : stroke) : Prop :=
  let '(across, along) := if at_x s then (x, y) else (y, x) in place res (level s) across /\ (along mod step s = 0)%Z.
Lemma stroke_spec res im s im' : draw_stroke res im s = Ok im' -> forall x y, (0 <= x < res)%Z -> (0 <= y < res)%Z ->
  (stroked res x y s -> im' x y = with_alpha 1 (im x y)) /\ (~ stroked res x y s -> im' x y = im x y).
Proof.
  unfold draw_stroke, uia_to_image_list. rewrite uia_place. cbn [bind]. fold (placed res (level s)). intros E x y X Y. destruct (existsb _ _); [discriminate|]. injection E as <-. unfold stroked.
  assert (G : forall across along, (0 <= across < res)%Z -> (existsb (Z.eqb across) (if ((0 <=? placed res (level s)) && (placed res (level s) <=? res))%Z then [placed res (level s)] else []) && (along mod step s =? 0)%Z = true
    <-> place res (level s) across /\ (along mod step s = 0)%Z)).
  { intros across along A. rewrite andb_true_iff, Z.eqb_eq, place_placed. destruct (Z.leb_spec 0 (placed res (level s))) as [L|L]; [destruct (Z.leb_spec (placed res (level s)) res) as [L'|L']|]; cbn [andb existsb]; [rewrite orb_false_r, Z.eqb_eq; reflexivity|..]; (split; [intros (Q & _); discriminate Q|intros (Q & _); lia]). }
  destruct (at_x s); [specialize (G x y X)|specialize (G y x Y)]; destruct (existsb _ _ && _); (split; [intros Q; first [reflexivity | apply G in Q; discriminate Q]|intros Q; first [reflexivity | destruct Q; apply G; reflexivity]]).
Qed.
Lemma grid_spec res el eu im : draw_grid res el eu = Ok im -> forall x y, (0 <= x < res)%Z -> (0 <= y < res)%Z ->
  (Exists (stroked res x y) (grid_strokes el eu) -> im x y = [1; 1; 0; 1]) /\ (~ Exists (stroked res x y) (grid_strokes el eu) -> im x y = [1; 1; 0; 0]).
Proof.
  unfold draw_grid. intros E x y X Y.
  assert (G : forall l im0 im, foldM (draw_stroke res) im0 l = Ok im -> (im0 x y = [1; 1; 0; 1] -> im x y = [1; 1; 0; 1]) /\ (im0 x y = [1; 1; 0; 0] -> (Exists (stroked res x y) l -> im x y = [1; 1; 0; 1]) /\ (~ Exists (stroked res x y) l -> im x y = [1; 1; 0; 0]))).
  { clear el eu im E. induction l as [|s l IH]; intros im0 im E.
    - injection E as <-. split; [auto|]. intros Q. split; [intros H; inversion H|intros _; exact Q].
    - cbn [foldM] in E. apply bind_inv in E. destruct E as (im1 & S & E). destruct (IH _ _ E) as (I1 & I2). destruct (stroke_spec _ _ _ _ S x y X Y) as (S1 & S2).
      assert (D : stroked res x y s \/ ~ stroked res x y s). { unfold stroked. destruct (if at_x s then (x, y) else (y, x)) as [ac al]. destruct (Z.eq_dec ac (placed res (level s))) as [A|A]; [|right; rewrite place_placed; tauto]. destruct (Z.eq_dec (al mod step s) 0) as [B|B]; [left; rewrite place_placed; tauto|right; tauto]. }
      split.
      + intros Q. apply I1. destruct D as [D|D]; [rewrite (S1 D), Q; reflexivity|rewrite (S2 D); exact Q].
      + intros Q. destruct D as [D|D].
        * rewrite Q in S1. specialize (S1 D). split; [intros _; apply I1; exact S1|intros N; destruct N; left; exact D].
        * rewrite Q in S2. destruct (I2 (S2 D)) as (J1 & J2). split; [intros H; apply J1; inversion H; [contradiction|assumption]|intros N; apply J2; intros H; apply N; right; exact H]. }
  destruct (G _ _ _ E) as (_ & H). apply H. reflexivity.
Qed.
Lemma strokes_lines el eu res row col : Exists (stroked res col (res - 1 - row)) (grid_strokes el eu) <-> on_grid el eu res row col.
Proof.
  rewrite Exists_exists. split.
  - intros (s & I & S). exists (at_x s), (level s), (step s). split; [|unfold stroked in S; destruct (at_x s); exact S]. unfold grid_line. clear S. unfold grid_strokes in I. cbn [app flat_map In] in I. repeat (destruct I as [<-|I]; [cbn [at_x level step]; tauto|]). destruct I.
  - intros (vertical & u & every & L & S). exists (Stroke vertical every u). split; [|unfold stroked; cbn [at_x level step]; destruct vertical; exact S]. clear S.
    unfold grid_strokes. cbn [app flat_map In]. destruct L as [(-> & [-> | ->])|[(-> & ->)|[(-> & [-> |[-> |[-> | ->]]])|(-> & -> & [-> | ->])]]]; try destruct vertical; repeat first [left; reflexivity | right].
Qed.

(** ** Areas *)
Lemma vertices_places res path : exists ps, mapM (fun c : R * R => bind (uia_to_image int_of_float res (fst c)) (fun x => bind (uia_to_image int_of_float res (snd c)) (fun y => Ok (x, y)))) path = Ok ps /\ Forall2 (places res) path ps.
Proof.
  induction path as [|c path (ps & E & F)]; [exists []; split; [reflexivity|constructor]|]. cbn [mapM]. rewrite !uia_place. cbn [bind]. rewrite E. cbn [bind]. eexists. split; [reflexivity|]. constructor; [|exact F]. split; apply placed_place.
Qed.
Lemma places_unique res path ps : Forall2 (places res) path ps -> forall qs, Forall2 (places res) path qs -> qs = ps.
Proof.
  induction 1 as [|c [x y] path ps (P1 & P2) F IH]; intros qs G; inversion G as [|? [x' y'] ? qs' (Q1 & Q2) G']; subst; [reflexivity|]. rewrite (IH _ G'). cbn [fst snd] in *  . rewrite (truncated_unique _ _ _ Q1 P1), (truncated_unique _ _ _ Q2 P2). reflexivity.
Qed.
Lemma paths_spec draw res paths : exists im, draw_paths draw res paths = Ok im /\ forall row col,
  (in_areas (polygon draw) res paths row col -> im col (res - 1 - row)%Z = magenta) /\ (~ in_areas (polygon draw) res paths row col -> im col (res - 1 - row)%Z = transparent).
Proof.
  unfold draw_paths. set (f := fun (im : image) (path : list (R * R)) => _).
  assert (G : forall im0, exists im, foldM f im0 paths = Ok im /\ forall row col,
    (in_areas (polygon draw) res paths row col -> im col (res - 1 - row)%Z = magenta) /\ (~ in_areas (polygon draw) res paths row col -> im col (res - 1 - row)%Z = im0 col (res - 1 - row)%Z) /\ (im0 col (res - 1 - row)%Z = magenta -> im col (res - 1 - row)%Z = magenta)).
  { induction paths as [|path paths IH]; intros im0.
    - exists im0. split; [reflexivity|]. intros row col. split; [intros (p & _ & [] & _)|]. split; [reflexivity|auto].
    - destruct (vertices_places res path) as (ps & E & F). cbn [foldM]. unfold f at 1. rewrite E. cbn [bind]. edestruct IH as (im & E1 & H). exists im. split; [exact E1|]. intros row col. specialize (H row col). cbv beta in H. destruct H as (H1 & H2 & H3).
      destruct (polygon draw ps col (res - 1 - row)%Z) eqn:PO.
      + specialize (H3 eq_refl). split; [intros _; exact H3|]. split; [|intros _; exact H3]. intros N. destruct N. exists path, ps. split; [left; reflexivity|]. split; assumption.
      + assert (EQ : in_areas (polygon draw) res (path :: paths) row col <-> in_areas (polygon draw) res paths row col).
        { split; intros (p & q & I & J & K); [|exists p, q; split; [right; exact I|split; assumption]]. destruct I as [<-|I]; [|exists p, q; repeat split; assumption]. rewrite (places_unique _ _ _ F _ J) in K. congruence. }
        rewrite EQ. split; [exact H1|]. split; [exact H2|exact H3]. }
  destruct (G blank) as (im & E & H). exists im. split; [exact E|]. intros row col. destruct (H row col) as (A & B & _). split; assumption.
Qed.

(** ** Hits *)
Lemma red_iff P Q p : (P <-> Q) -> red P p -> red Q p.
Proof. intros E (L & A & V & C). split; [exact L|]. split; [exact A|]. split; [rewrite V; exact E|exact C]. Qed.
Lemma red_pure P p : red P p -> firstn 3 p = [1; 0; 0] -> forall a, red (0 < a) (with_alpha a p) \/ ~ 0 <= a <= 1.
Proof.
  intros (L & _) C a. destruct (Rle_dec 0 a); [destruct (Rle_dec a 1)|]; [left|right; lra..]. unfold with_alpha. rewrite C. cbn. repeat split; try lra; auto.
Qed.
Lemma hits_spec draw res hits : exists im, draw_hits draw res hits = Ok im /\ forall x y, (0 <= x < res)%Z -> (0 <= y < res)%Z ->
  exists a, im x y = [1; 0; 0; a] /\ (a = 0 \/ a = 1) /\ (a = 1 <-> exists h, In h hits /\ circled (circle draw) res h (res - 1 - y) x).
Proof.
  unfold draw_hits.
  assert (G : forall hits drawn im0, exists drawn' im, foldM (draw_hit draw res) (drawn, im0) hits = Ok (drawn', im)
    /\ forall x y (P : Prop), (0 <= x < res)%Z -> (0 <= y < res)%Z -> (forall a b, drawn a b = true -> circle draw a b (hit_radius res) x y = true -> P) ->
       (exists a, im0 x y = [1; 0; 0; a] /\ (a = 0 \/ a = 1) /\ (a = 1 <-> P)) ->
       exists a, im x y = [1; 0; 0; a] /\ (a = 0 \/ a = 1) /\ (a = 1 <-> P \/ exists h, In h hits /\ circled (circle draw) res h (res - 1 - y) x)).
  { clear hits. induction hits as [|h hits IH]; intros drawn im0.
    - exists drawn, im0. split; [reflexivity|]. intros x y P X Y D (a & E & A & V). exists a. split; [exact E|]. split; [exact A|]. rewrite V. split; [left; assumption|intros [H|(h & [] & _)]; exact H].
    - cbn [foldM]. unfold draw_hit at 1. rewrite !uia_place. cbn [bind]. fold (placed res (fst h)). fold (placed res (snd h)). set (px := placed res (fst h)). set (py := placed res (snd h)).
      assert (CI : forall x y, (0 <= x < res)%Z -> (0 <= y < res)%Z -> circled (circle draw) res h (res - 1 - y) x <-> in_image res py px /\ circle draw px py (hit_radius res) x y = true).
      { intros x y X Y. replace (circled (circle draw) res h (res - 1 - y) x) with (exists x0 y0 r, places res h (x0, y0) /\ in_image res y0 x0 /\ truncated (Rmax 3 (IZR res / 500)) r /\ circle draw x0 y0 r x (res - 1 - (res - 1 - y))%Z = true) by reflexivity. replace (res - 1 - (res - 1 - y))%Z with y by lia. split.
        - intros (x0 & y0 & r & (P1 & P2) & I & T & C). cbn [fst snd] in P1, P2. apply place_placed in P1, P2. fold px in P1. fold py in P2. subst x0 y0. rewrite (truncated_unique _ _ _ T (truncR_truncated _)) in C. split; assumption.
        - intros (I & C). exists px, py, (hit_radius res). split; [split; apply placed_place|]. split; [exact I|]. split; [apply truncR_truncated|exact C]. }
      assert (II : ((0 <=? px) && (px <? res) && (0 <=? py) && (py <? res))%Z = true <-> in_image res py px) by (unfold in_image; rewrite !andb_true_iff, !Z.leb_le, !Z.ltb_lt; tauto).
      destruct ((0 <=? px) && (px <? res) && (0 <=? py) && (py <? res))%Z; [destruct (drawn px py) eqn:DR|]; cbn [andb negb].
      + edestruct (IH drawn im0) as (d' & im & E & H). exists d', im. split; [exact E|]. intros x y P X Y D B. destruct (H x y P X Y D B) as (a & E1 & A & V). exists a. split; [exact E1|]. split; [exact A|]. rewrite V. split; intros [Q|(h' & I & C)]; [left; exact Q|right; exists h'; split; [right; exact I|exact C]|left; exact Q|].
        destruct I as [<-|I]; [|right; exists h'; split; assumption]. left. apply (CI x y X Y) in C. destruct C as (_ & C). exact (D px py DR C).
      + edestruct IH as (d' & im & E & H). exists d', im. split; [exact E|]. intros x y P X Y D B.
        destruct (H x y (P \/ circle draw px py (hit_radius res) x y = true) X Y) as (a & E1 & A & V).
        * cbv beta. intros a b Q C. apply orb_true_iff in Q. destruct Q as [Q|Q]; [|left; exact (D a b Q C)]. apply andb_true_iff in Q. rewrite !Z.eqb_eq in Q. destruct Q as (-> & ->). right. exact C.
        * cbv beta. destruct B as (a & -> & A & V). destruct (circle draw px py (hit_radius res) x y).
          -- exists 1. split; [reflexivity|]. split; [right; reflexivity|]. split; [intros _; right; reflexivity|reflexivity].
          -- exists a. split; [reflexivity|]. split; [exact A|]. rewrite V. split; [left; assumption|intros [Q|Q]; [exact Q|discriminate]].
        * exists a. split; [exact E1|]. split; [exact A|]. rewrite V. split.
          -- intros [[Q|Q]|(h' & I & C)]; [left; exact Q|right; exists h; split; [left; reflexivity|]; apply (CI x y X Y); split; [apply II; reflexivity|exact Q]|right; exists h'; split; [right; exact I|exact C]].
          -- intros [Q|(h' & [<-|I] & C)]; [left; left; exact Q|left; right; apply (CI x y X Y) in C; tauto|right; exists h'; split; assumption].
      + edestruct (IH drawn im0) as (d' & im & E & H). exists d', im. split; [exact E|]. intros x y P X Y D B. destruct (H x y P X Y D B) as (a & E1 & A & V). exists a. split; [exact E1|]. split; [exact A|]. rewrite V. split; intros [Q|(h' & I & C)]; [left; exact Q|right; exists h'; split; [right; exact I|exact C]|left; exact Q|].
        destruct I as [<-|I]; [|right; exists h'; split; assumption]. apply (CI x y X Y) in C. destruct C as (C & _). apply II in C. discriminate C. }
  destruct (G hits (fun _ _ => false) (fun _ _ => [1; 0; 0; 0])) as (d & im & E & H). exists im. split; [exact (f_equal (fun r => bind r (fun st => Ok (snd st))) E)|]. intros x y X Y. destruct (H x y False X Y) as (a & E1 & A & V).
  - discriminate.
  - exists 0. split; [reflexivity|]. split; [left; reflexivity|]. split; [intros Q; lra|intros []].
  - exists a. split; [exact E1|]. split; [exact A|]. rewrite V. split; [intros [[]|Q]; exact Q|right; assumption].
Qed.

(** ** Offenders *)
Lemma weight_spec l x y v : weight l x y = Some v <-> weighs l x y v.
Proof.
  unfold weight, weighs. assert (G : forall l o, fold_left (fun o p => let '(r, c, v) := p in if ((r =? x) && (c =? y))%Z then Some v else o) l o = Some v <->
    (exists l1 l2, l = l1 ++ (x, y, v) :: l2 /\ forall v', ~ In (x, y, v') l2) \/ (o = Some v /\ forall v', ~ In (x, y, v') l)).
  { clear l. induction l as [|[[r c] w] l IH]; intros o; cbn [fold_left].
    - split; [intros ->; right; split; [reflexivity|intros v' []]|]. intros [(l1 & l2 & E & _)|(E & _)]; [destruct l1; discriminate|exact E].
    - rewrite IH. destruct (Z.eqb_spec r x) as [->|NR]; [destruct (Z.eqb_spec c y) as [->|NC]|]; cbn [andb].
      + split.
        * intros [(l1 & l2 & -> & N)|(E & N)]; [left; exists ((x, y, w) :: l1), l2; split; [reflexivity|exact N]|]. left. injection E as ->. exists [], l. split; [reflexivity|exact N].
        * intros [(l1 & l2 & E & N)|(E & N)]; [|destruct (N w); left; reflexivity]. destruct l1 as [|q l1]; [|left; exists l1, l2; split; [injection E; auto|exact N]]. injection E as -> ->. right. split; [reflexivity|exact N].
      + split.
        * intros [(l1 & l2 & -> & N)|(E & N)]; [left; exists ((x, c, w) :: l1), l2; split; [reflexivity|exact N]|]. right. split; [exact E|]. intros v' [Q|Q]; [injection Q as Q _; congruence|exact (N v' Q)].
        * intros [(l1 & l2 & E & N)|(E & N)]; [|right; split; [exact E|intros v' Q; apply (N v'); right; exact Q]]. destruct l1 as [|q l1]; [injection E as E _ _; congruence|]. left. exists l1, l2. split; [injection E; auto|exact N].
      + split.
        * intros [(l1 & l2 & -> & N)|(E & N)]; [left; exists ((r, c, w) :: l1), l2; split; [reflexivity|exact N]|]. right. split; [exact E|]. intros v' [Q|Q]; [injection Q as Q _ _; congruence|exact (N v' Q)].
        * intros [(l1 & l2 & E & N)|(E & N)]; [|right; split; [exact E|intros v' Q; apply (N v'); right; exact Q]]. destruct l1 as [|q l1]; [injection E as E _ _ _; congruence|]. left. exists l1, l2. split; [injection E; auto|exact N]. }
  rewrite G. split; [intros [H|(E & _)]; [exact H|discriminate E]|left; assumption].
Qed.
Lemma weight_filter f l x y : (forall v, f (x, y, v) = true) -> weight (filter f l) x y = weight l x y.
Proof.
  intros H. unfold weight. generalize (@None R) as o. induction l as [|[[r c] w] l IH]; intros o; [reflexivity|]. cbn [filter]. destruct (f (r, c, w)) eqn:F; cbn [fold_left]; [apply IH|].
  rewrite IH. destruct (Z.eqb_spec r x) as [->|NR]; [destruct (Z.eqb_spec c y) as [->|NC]|]; cbn [andb]; try reflexivity. rewrite H in F. discriminate.
Qed.
Lemma weighs_in l x y v : weighs l x y v -> In (x, y, v) l.
Proof. intros (l1 & l2 & -> & _). apply in_or_app. right. left. reflexivity. Qed.
Definition traced (draw : drawing) (ps : list (Z * Z)) (res x y : Z) : Prop :=
  exists a b v, In (a, b) (adjacent ps) /\ (0 <= fst b)%Z /\ (fst a <= res)%Z /\ weighs (line_aa draw (fst b) (snd b) (fst a) (snd a)) x y v /\ 0 < v.
(** Pure red with some alpha. *)
Definition tinted (P : Prop) (p : list R) : Prop := exists a, p = [1; 0; 0; a] /\ 0 <= a <= 1 /\ (0 < a <-> P).
Lemma line_spec draw res im a b x y P : fair (line_aa draw) -> (0 <= x < res)%Z -> (0 <= y < res)%Z -> tinted P (im x y) ->
  tinted (P \/ exists v, weighs (line_aa draw (fst b) (snd b) (fst a) (snd a)) x y v /\ 0 < v) (draw_line draw res im a b x y).
Proof.
  intros FA X Y (al & E & A & V). unfold draw_line. rewrite weight_filter; [|intros v; rewrite !andb_true_iff, !Z.leb_le, !Z.ltb_lt; tauto]. destruct (weight _ x y) as [v|] eqn:W.
  - apply weight_spec in W. pose proof (FA _ _ _ _ _ _ _ (weighs_in _ _ _ _ W)) as F. rewrite E. cbn [nth with_alpha firstn app]. exists (v + (1 - v) * al). split; [reflexivity|]. split; [nra|]. split.
    + intros Q. destruct (Rlt_le_dec 0 v) as [L|L]; [right; exists v; split; [exact W|exact L]|]. left. apply V. nra.
    + intros [Q|(v' & W' & Q)]; [apply V in Q|apply weight_spec in W, W'; assert (v' = v) by congruence; subst v']; [|nra]. destruct (Req_dec v 0) as [->|NV]; [lra|]. nra.
  - rewrite E. exists al. split; [reflexivity|]. split; [exact A|]. rewrite V. split; [left; assumption|]. intros [Q|(v & Q & _)]; [exact Q|]. apply weight_spec in Q. congruence.
Qed.
Lemma lines_spec draw res x y : fair (line_aa draw) -> (0 <= x < res)%Z -> (0 <= y < res)%Z -> forall td yd im P, length td = length yd -> tinted P (im x y) ->
  exists im', draw_lines draw res im td yd = Ok im' /\ tinted (P \/ traced draw (combine td yd) res x y) (im' x y).
Proof.
  intros FA X Y. induction td as [|t0 td IH]; intros yd im P L T.
  - exists im. split; [reflexivity|]. destruct T as (a & E & A & V). exists a. split; [exact E|]. split; [exact A|]. rewrite V. split; [left; assumption|intros [Q|(p & q & v & [] & _)]; exact Q].
  - destruct yd as [|y0 yd]; [discriminate|]. destruct td as [|t1 td].
    + exists im. split; [reflexivity|]. destruct yd; [|discriminate]. destruct T as (a & E & A & V). exists a. split; [exact E|]. split; [exact A|]. rewrite V. split; [left; assumption|intros [Q|(p & q & v & [] & _)]; exact Q].
    + destruct yd as [|y1 yd]; [discriminate|]. 
      change (draw_lines draw res im (t0 :: t1 :: td) (y0 :: y1 :: yd)) with (bind (if ((t1 <? 0) || (res <? t0))%Z then Ok im else Ok (draw_line draw res im (t0, y0) (t1, y1))) (fun im => draw_lines draw res im (t1 :: td) (y1 :: yd))).
      assert (AD : traced draw (combine (t0 :: t1 :: td) (y0 :: y1 :: yd)) res x y <-> ((0 <= t1 /\ t0 <= res)%Z /\ exists v, weighs (line_aa draw t1 y1 t0 y0) x y v /\ 0 < v) \/ traced draw (combine (t1 :: td) (y1 :: yd)) res x y).
      { unfold traced. cbn [combine adjacent]. split.
        - intros (a & b & v & [Q|I] & B1 & B2 & W & V); [injection Q as <- <-; left; split; [split; assumption|exists v; split; assumption]|right; exists a, b, v; repeat split; assumption].
        - intros [((B1 & B2) & v & W & V)|(a & b & v & I & B1 & B2 & W & V)]; [exists (t0, y0), (t1, y1), v; split; [left; reflexivity|]; repeat split; assumption|exists a, b, v; split; [right; exact I|]; repeat split; assumption]. }
      destruct (Z.ltb_spec t1 0) as [L1|L1]; [|destruct (Z.ltb_spec res t0) as [L2|L2]]; cbn [orb bind].
      * destruct (IH (y1 :: yd) im P ltac:(cbn in L |- *; lia) T) as (im' & E & T'). exists im'. split; [exact E|]. destruct T' as (a & E1 & A & V). exists a. split; [exact E1|]. split; [exact A|]. rewrite V, AD. split; [intros [Q|Q]; [left; exact Q|right; right; exact Q]|]. intros [Q|[((Q & _) & _)|Q]]; [left; exact Q|lia|right; exact Q].
      * destruct (IH (y1 :: yd) im P ltac:(cbn in L |- *; lia) T) as (im' & E & T'). exists im'. split; [exact E|]. destruct T' as (a & E1 & A & V). exists a. split; [exact E1|]. split; [exact A|]. rewrite V, AD. split; [intros [Q|Q]; [left; exact Q|right; right; exact Q]|]. intros [Q|[((_ & Q) & _)|Q]]; [left; exact Q|lia|right; exact Q].
      * pose proof (line_spec draw res im (t0, y0) (t1, y1) x y P FA X Y T) as T1. cbn [fst snd] in T1. destruct (IH (y1 :: yd) _ _ ltac:(cbn in L |- *; lia) T1) as (im' & E & T'). exists im'. split; [exact E|]. destruct T' as (a & E1 & A & V). exists a. split; [exact E1|]. split; [exact A|]. rewrite V, AD.
        split; [intros [[Q|Q]|Q]; [left; exact Q|right; left; split; [split; assumption|exact Q]|right; right; exact Q]|]. intros [Q|[(_ & Q)|Q]]; [left; left; exact Q|left; right; exact Q|right; exact Q].
Qed.
Lemma layer_red junk P Q b a : red P b -> tinted Q a -> red (P \/ Q) (ImageModel.layer_pixel junk b a).
Proof.
  intros (L & A & V & C) (al & -> & B & W). unfold ImageModel.layer_pixel. change (ImageModel.chan 3 [1; 0; 0; al]) with al. change (ImageModel.chan 3 b) with (nth 3 b 0). set (be := nth 3 b 0) in *  .
  cbn [nadd nsub nmul nofZ NumR]. set (o := al + be * (1 - al)). assert (O : 0 <= o <= 1) by (unfold o; nra). assert (OV : 0 < o <-> P \/ Q).
  { rewrite <- V, <- W. unfold o. split; [intros H; destruct (Rlt_le_dec 0 be) as [U|U]; [left; exact U|right; assert (be = 0) by lra; nra]|]. intros [H|H]; [|nra]. destruct (Rlt_le_dec 0 al); nra. }
  split; [reflexivity|]. change (nth 3 (map (fun k => ImageModel.blend (junk k) (ImageModel.chan k [1; 0; 0; al]) al (ImageModel.chan k b) be o) [0; 1; 2]%nat ++ [o]) 0) with o. split; [exact O|]. split; [exact OV|]. intros OP.
  change (firstn 3 (map (fun k => ImageModel.blend (junk k) (ImageModel.chan k [1; 0; 0; al]) al (ImageModel.chan k b) be o) [0; 1; 2]%nat ++ [o])) with (map (fun k => ImageModel.blend (junk k) (ImageModel.chan k [1; 0; 0; al]) al (ImageModel.chan k b) be o) [0; 1; 2]%nat).
  cbn [map]. unfold ImageModel.blend. cbn [neq nadd nsub nmul ndiv nofZ NumR]. destruct (Reqb o 0) eqn:Z; [apply Reqb_true in Z; lra|].
  assert (G : forall k, (k < 3)%nat -> (ImageModel.chan k [1; 0; 0; al] * al + ImageModel.chan k b * be * (1 - al)) / o = nth k [1; 0; 0] 0).
  { intros k K. assert (CB : ImageModel.chan k b * be = nth k [1; 0; 0] 0 * be). { destruct (Rlt_le_dec 0 be) as [U|U]; [|assert (be = 0) as -> by lra; ring]. specialize (C U). f_equal. change (nth k b 0 = nth k [1; 0; 0] 0). rewrite <- C. clear -K L. destruct b as [|? [|? [|? b]]]; try discriminate L. destruct k as [|[|[|k]]]; try reflexivity. lia. }
    rewrite CB. assert (CA : ImageModel.chan k [1; 0; 0; al] = nth k [1; 0; 0] 0) by (destruct k as [|[|[|k]]]; try reflexivity; lia). rewrite CA. unfold o. field. unfold o in OP. lra. }
  rewrite !G by lia. reflexivity.
Qed.

Section Symbols.
Variable draw : drawing.
Variable cast : R -> Z.
Variables (t_delta t_sym y_zero y_ua : R) (res w : Z) (t0 : list R).
Hypothesis FA : fair (line_aa draw).
Hypothesis W : get_i_width int_of_float t_sym t_delta = Ok w.
Hypothesis T0 : window_axis w t_sym t_delta = Ok t0.
Let min_y := - (1 / 2) * y_ua + y_zero.
Let max_y := 3 / 2 * y_ua + y_zero.
Definition pixels_of (y : list R) (s : R * Z) : list (Z * Z) := symbol_pixels cast y t_sym min_y max_y res w t0 s.
Definition fitting (y : list R) (s : R * Z) : Prop := (0 <= snd s - w /\ snd s + w < Z.of_nat (length y))%Z.
Lemma symbols_spec y symbols idx x z : (0 <= x < res)%Z -> (0 <= z < res)%Z ->
  (forall i, In i idx -> exists s, nth_error symbols i = Some s /\ fitting y s) ->
  exists im, draw_symbols draw cast y symbols t_delta t_sym min_y max_y res idx = Ok im
    /\ tinted (exists i s, In i idx /\ nth_error symbols i = Some s /\ traced draw (pixels_of y s) res x z) (im x z).
Proof.
  intros X Z IN. unfold draw_symbols. rewrite W. cbn [bind]. rewrite T0. cbn [bind]. set (f := fun (im : image) (i : nat) => _).
  assert (G : forall idx im0 P, (forall i, In i idx -> exists s, nth_error symbols i = Some s /\ fitting y s) -> tinted P (im0 x z) ->
    exists im, foldM f im0 idx = Ok im /\ tinted (P \/ exists i s, In i idx /\ nth_error symbols i = Some s /\ traced draw (pixels_of y s) res x z) (im x z)).
  { clear idx IN. induction idx as [|i idx IH]; intros im0 P IN T.
    - exists im0. split; [reflexivity|]. destruct T as (a & E & A & V). exists a. split; [exact E|]. split; [exact A|]. rewrite V. split; [left; assumption|intros [Q|(i & s & [] & _)]; exact Q].
    - destruct (IN i (or_introl eq_refl)) as (s & N & FI). cbn [foldM]. unfold f at 1. unfold get. rewrite N. cbn [bind]. destruct (window_axis_length _ _ _ _ T0) as (H0 & HL). 
      assert (FI' : (0 <= snd s - w /\ snd s + w < Z.of_nat (length (normalise_y y min_y (max_y - min_y)%R)))%Z) by (unfold normalise_y; rewrite map_length; exact FI).
      pose proof (EyeProofs.window_agree t0 (normalise_y y min_y (max_y - min_y)) w t_sym s H0 HL FI') as WA.
      assert (PX : pixels_of y s = map (pixel_of cast res) (points (window_fb t0 (normalise_y y min_y (max_y - min_y)) w t_sym s))) by reflexivity.
      destruct (window_fb t0 (normalise_y y min_y (max_y - min_y)) w t_sym s) as [wt wy] eqn:WE. cbn [fst snd] in WA. destruct WA as (_ & L1 & L2 & _).
      try rewrite WE.
      edestruct (lines_spec draw res x z FA X Z (map (fun t => cast ((t + 1 / 2) / 2 * IZR res)) wt) (map (fun y => cast (y * IZR res)) wy) im0 P) as (im1 & E1 & T1); [rewrite !map_length; congruence|exact T|].
      rewrite E1. cbn [bind]. destruct (IH im1 _ (fun i' I => IN i' (or_intror I)) T1) as (im & E & T2). exists im. split; [exact E|]. destruct T2 as (a & Ea & A & V). exists a. split; [exact Ea|]. split; [exact A|]. rewrite V.
      rewrite combine_map in PX || idtac. assert (PE : combine (map (fun t => cast ((t + 1 / 2) / 2 * IZR res)) wt) (map (fun y => cast (y * IZR res)) wy) = pixels_of y s) by (rewrite PX, combine_map; reflexivity). rewrite PE. split.
      + intros [[Q|Q]|(i' & s' & I & N' & TR)]; [left; exact Q|right; exists i, s; split; [left; reflexivity|split; assumption]|right; exists i', s'; split; [right; exact I|split; assumption]].
      + intros [Q|(i' & s' & [<-|I] & N' & TR)]; [left; left; exact Q|left; right; congruence|right; exists i', s'; repeat split; assumption]. }
  destruct (G idx (fun _ _ => [1; 0; 0; 0]) False IN) as (im & E & T); [exists 0; split; [reflexivity|]; split; [lra|]; split; [intros Q; lra|intros []]|].
  exists im. split; [exact E|]. destruct T as (a & Ea & A & V). exists a. split; [exact Ea|]. split; [exact A|]. rewrite V. split; [intros [[]|Q]; exact Q|right; assumption].
Qed.
Lemma offenders_spec waves offs x z im0 P : (0 <= x < res)%Z -> (0 <= z < res)%Z -> length waves = length offs ->
  (forall j wv o i, nth_error waves j = Some wv -> nth_error offs j = Some o -> In i (firstn 2 o) -> exists s, nth_error (snd wv) i = Some s /\ fitting (fst wv) s) ->
  red P (im0 x z) ->
  exists im, draw_offenders draw cast res t_delta t_sym y_zero y_ua waves offs im0 = Ok im
    /\ red (P \/ exists j wv o i s, nth_error waves j = Some wv /\ nth_error offs j = Some o /\ In i (firstn 2 o) /\ nth_error (snd wv) i = Some s /\ traced draw (pixels_of (fst wv) s) res x z) (im x z).
Proof.
  intros X Z L IN R0. unfold draw_offenders. fold min_y max_y.
  assert (G : forall waves k im0 P, (k + length waves = length offs)%nat ->
    (forall j wv o i, nth_error waves j = Some wv -> nth_error offs (k + j) = Some o -> In i (firstn 2 o) -> exists s, nth_error (snd wv) i = Some s /\ fitting (fst wv) s) -> red P (im0 x z) ->
    exists im, foldM (fun (im : image) p => let '(i, w) := p in bind (get offs i) (fun o => bind (draw_symbols draw cast (fst w) (snd w) t_delta t_sym min_y max_y res (firstn 2 o)) (fun above => Ok (fun x y => ImageModel.layer_pixel (junk draw i x y) (im x y) (above x y))))) im0 (combine (seq k (length waves)) waves) = Ok im
    /\ red (P \/ exists j wv o i s, nth_error waves j = Some wv /\ nth_error offs (k + j) = Some o /\ In i (firstn 2 o) /\ nth_error (snd wv) i = Some s /\ traced draw (pixels_of (fst wv) s) res x z) (im x z)).
  { clear waves im0 P L IN R0. induction waves as [|wv waves IH]; intros k im0 P L IN R0.
    - exists im0. split; [reflexivity|]. eapply red_iff; [|exact R0]. split; [left; assumption|]. intros [Q|(j & wv & o & i & s & Q & _)]; [exact Q|]. destruct j; discriminate Q.
    - cbn [length seq combine foldM]. unfold get at 1. destruct (nth_error offs k) as [o|] eqn:O; [|apply nth_error_None in O; cbn in L; lia]. cbn [bind].
      destruct (symbols_spec (fst wv) (snd wv) (firstn 2 o) x z X Z) as (ab & E1 & T1); [intros i I; apply (IN 0%nat wv o i); [reflexivity|rewrite Nat.add_0_r; exact O|exact I]|]. rewrite E1. cbn [bind].
      edestruct (IH (S k) (fun x0 y => ImageModel.layer_pixel (junk draw k x0 y) (im0 x0 y) (ab x0 y))) as (im & E & R1).
      + cbn in L. lia.
      + intros j wv' o' i N1 N2. apply (IN (S j) wv' o' i N1). replace (k + S j)%nat with (S k + j)%nat by lia. exact N2.
      + cbv beta. apply layer_red; [exact R0|exact T1].
      + exists im. split; [exact E|]. eapply red_iff; [|exact R1]. split.
        * intros [[Q|(i & s & I & N & TR)]|(j & wv' & o' & i & s & N1 & N2 & I & N & TR)]; [left; exact Q|right; exists 0%nat, wv, o, i, s; rewrite Nat.add_0_r; repeat split; assumption|].
          right. exists (S j), wv', o', i, s. replace (k + S j)%nat with (S k + j)%nat by lia. repeat split; assumption.
        * intros [Q|(j & wv' & o' & i & s & N1 & N2 & I & N & TR)]; [left; left; exact Q|]. destruct j as [|j]; [|right; exists j, wv', o', i, s; replace (S k + j)%nat with (k + S j)%nat by lia; repeat split; assumption].
          rewrite Nat.add_0_r in N2. injection N1 as <-. assert (o' = o) by congruence. subst o'. left. right. exists i, s. repeat split; assumption. }
  destruct (G waves 0%nat im0 P L IN R0) as (im & E & R1). exists im. split; [exact E|exact R1].
Qed.
End Symbols.

(** ** What is found of a mask *)
Lemma get_inv {X} (l : list X) i x : get l i = Ok x -> nth_error l i = Some x.
Proof. unfold get. destruct (nth_error l i); [congruence|discriminate]. Qed.
Definition offending (t0 y : list R) (w : Z) (t : R) (zero : list (list (R * R))) (syms : list (R * Z)) (k : nat) (h : list (R * R)) : Prop :=
  exists s, nth_error syms k = Some s /\ hits (fst (window_fb t0 y w t s)) (snd (window_fb t0 y w t s)) zero = Ok h /\ h <> [].
Lemma mask_fold t0 y w t paths n zero : nth_error paths (n / 2) = Some zero -> forall syms pre i im offs hs st,
  foldM (mask_step t0 y w t paths n) (i, im, offs, hs) syms = Ok st -> i = length pre ->
  exists new hl, snd (fst st) = offs ++ new /\ snd st = hs ++ concat hl /\ Forall2 (offending t0 y w t zero (pre ++ syms)) new hl /\ Sorted.StronglySorted lt new /\ Forall (le i) new.
Proof.
  intros NZ. induction syms as [|s syms IH]; intros pre i im offs hs st E EI.
  - injection E as <-. exists [], []. cbn [fst snd concat]. rewrite !app_nil_r. repeat split; constructor.
  - cbn [foldM] in E. apply bind_inv in E. destruct E as (st1 & E1 & E). unfold mask_step in E1. destruct (window_fb t0 y w t s) as [wt wy] eqn:WE. apply bind_inv in E1. destruct E1 as (im' & _ & E1).
    assert (NS : nth_error (pre ++ s :: syms) i = Some s) by (rewrite EI, nth_error_app2, Nat.sub_diag by lia; reflexivity).
    assert (LP : S i = length (pre ++ [s])) by (rewrite app_length; cbn; lia). replace (pre ++ s :: syms) with ((pre ++ [s]) ++ syms) by (rewrite <- app_assoc; reflexivity).
    destruct (im' <? n / 2)%nat.
    + injection E1 as <-. destruct (IH _ _ _ _ _ _ E LP) as (new & hl & O & H & F & SO & LE). exists new, hl. repeat (split; [assumption|]). eapply Forall_impl; [|exact LE]. intros a A. cbn beta in A. lia.
    + apply bind_inv in E1. destruct E1 as (m0 & G & E1). apply get_inv in G. rewrite NZ in G. injection G as <-. apply bind_inv in E1. destruct E1 as (h & HT & E1). unfold hits_np in HT.
      destruct h as [|h0 h]; injection E1 as <-; destruct (IH _ _ _ _ _ _ E LP) as (new & hl & O & H & F & SO & LE); [exists new, hl; repeat (split; [assumption|]); eapply Forall_impl; [|exact LE]; intros a A; cbn beta in A; lia|]. exists (i :: new), ((h0 :: h) :: hl). rewrite O, H. cbn [concat]. split; [rewrite <- app_assoc; reflexivity|]. split; [rewrite <- app_assoc; reflexivity|]. split; [constructor; [|exact F]|split; constructor; [exact SO|exact LE|apply Nat.le_refl|eapply Forall_impl; [|exact LE]; intros a A; cbn beta in A; lia]].
      exists s. rewrite WE. cbn [fst snd]. split; [rewrite <- app_assoc; exact NS|]. split; [exact HT|discriminate].
Qed.
Lemma sample_mask_found y syms (td t yz ua : R) paths zero o w t0 : get_i_width int_of_float t td = Ok w -> window_axis w t td = Ok t0 -> nth_error paths 1000 = Some zero ->
  sample_mask int_of_float y syms td t yz ua paths margins = Ok o ->
  exists hl, mask_hits o = concat hl /\ Forall2 (offending t0 (normalise_y y yz ua) w t zero syms) (offenders o) hl /\ Sorted.StronglySorted lt (offenders o).
Proof.
  intros W T NZ. unfold sample_mask. rewrite W. cbn [bind]. rewrite T. cbn [bind]. intros E. apply bind_inv in E. destruct E as ([[[i im] offs] hs] & FO & E). apply bind_inv in E. destruct E as (mg & _ & E). injection E as <-. cbn [mask_hits offenders].
  destruct (mask_fold t0 (normalise_y y yz ua) w t paths (length (margins (A := R))) zero) with (syms := syms) (pre := @nil (R * Z)) (i := 0%nat) (im := 0%nat) (offs := @nil nat) (hs := @nil (R * R)) (st := (i, im, offs, hs)) as (new & hl & O & H & F & SO & _); [unfold margins; rewrite map_length, seq_length; exact NZ|exact FO|reflexivity|].
  cbn [fst snd app] in O, H, F. subst offs hs. exists hl. split; [reflexivity|]. split; [exact F|exact SO].
Qed.
Definition wave_found (t0 : list R) (w : Z) (t yz ua : R) (zero : list (list (R * R))) (wv : list R * list (R * Z)) (o : list nat) (hl : list (list (R * R))) : Prop :=
  Forall2 (offending t0 (normalise_y (fst wv) yz ua) w t zero (snd wv)) o hl /\ Sorted.StronglySorted lt o.
Lemma eye_found mk mc (td t yz ua : R) zero ws offs hs mg cnt w t0 : get_i_width int_of_float t td = Ok w -> window_axis w t td = Ok t0 ->
  mask_convert mk ua t = Ok mc -> mask_paths mc = Ok zero -> eye_sample_mask int_of_float (Some mk) td t yz ua ws = Ok (offs, hs, mg, cnt) ->
  cnt = length (concat offs) /\ exists hls, length ws = length offs /\ length ws = length hls /\ hs = concat (concat hls)
    /\ forall j wv o hl, nth_error ws j = Some wv -> nth_error offs j = Some o -> nth_error hls j = Some hl -> wave_found t0 w t yz ua zero wv o hl.
Proof.
  intros W T MC MP. unfold eye_sample_mask. rewrite MC. cbn [bind]. intros E. apply bind_inv in E. destruct E as (paths & PS & E).
  assert (NZ : nth_error paths 1000 = Some zero).
  { assert (G : forall l ps, mapM (mask_adjusted mc) l = Ok ps -> forall k f, nth_error l k = Some f -> exists p, nth_error ps k = Some p /\ mask_adjusted mc f = Ok p).
    { clear. induction l as [|a l IH]; intros ps E k f N; [destruct k; discriminate|]. cbn [mapM] in E. apply bind_inv in E. destruct E as (p & E1 & E). apply bind_inv in E. destruct E as (ps' & E2 & E). injection E as <-. destruct k as [|k]; [injection N as <-; exists p; split; [reflexivity|exact E1]|exact (IH _ E2 k f N)]. }
    destruct (G _ _ PS 1000%nat 0) as (p & N & A).
    - rewrite (margins_nth 1000) by lia. f_equal. change (IZR 0 / 1000 = 0). lra.
    - rewrite N. f_equal. destruct MaskProps.C36_zero_is_identity as (Z1 & Z2). destruct mc as [m|m]; cbn [mask_adjusted mask_paths] in A, MP; [destruct (Z1 m) as (m' & E1 & E2)|destruct (Z2 m) as (m' & E1 & E2)]; rewrite E1 in A; cbn [bind] in A; congruence. }
  assert (G : forall ws st st', foldM (fun st (w : list R * list (R * Z)) => let '(offs, hs, mg, cnt) := st in
        bind (sample_mask int_of_float (fst w) (snd w) td t yz ua paths margins) (fun o => Ok (offs ++ [offenders o], hs ++ mask_hits o, if (margin o <. mg)%num then margin o else mg, (cnt + length (offenders o))%nat))) st ws = Ok st' ->
     exists os hls, fst (fst (fst st')) = fst (fst (fst st)) ++ os /\ snd (fst (fst st')) = snd (fst (fst st)) ++ concat (concat hls) /\ snd st' = (snd st + length (concat os))%nat /\ length ws = length os /\ length ws = length hls
       /\ forall j wv o hl, nth_error ws j = Some wv -> nth_error os j = Some o -> nth_error hls j = Some hl -> wave_found t0 w t yz ua zero wv o hl).
  { clear ws offs hs mg cnt E PS. induction ws as [|wv ws IH]; intros [[[offs hs] mg] cnt] st' E.
    - injection E as <-. exists [], []. cbn. rewrite !app_nil_r. split; [reflexivity|]; split; [reflexivity|]; split; [lia|]; split; [reflexivity|]; split; [reflexivity|]. intros j ? ? ? Q. destruct j; discriminate.
    - cbn [foldM] in E. apply bind_inv in E. destruct E as (st1 & E1 & E). apply bind_inv in E1. destruct E1 as (o & SM & E1). injection E1 as <-. destruct (sample_mask_found _ _ _ _ _ _ _ _ _ _ _ W T NZ SM) as (hl & HH & FH).
      destruct (IH _ _ E) as (os & hls & O & H & C & L1 & L2 & N). cbn [fst snd] in O, H, C |- * . exists (offenders o :: os), (hl :: hls). rewrite O, H, C, HH. cbn [concat]. rewrite <- !app_assoc. cbn [app]. split; [reflexivity|]. split; [rewrite concat_app; reflexivity|]. split; [rewrite app_length; lia|]. split; [cbn; lia|]. split; [cbn; lia|].
      intros [|j] wv' o' hl' N1 N2 N3; [|exact (N j wv' o' hl' N1 N2 N3)]. injection N1 as <-. injection N2 as <-. injection N3 as <-. exact FH. }
  destruct (G ws _ _ E) as (os & hls & O & H & C & L1 & L2 & N). cbn [fst snd app] in O, H, C. subst offs hs. split; [rewrite C; reflexivity|]. exists hls. repeat (split; [assumption || reflexivity|]); exact N.
Qed.
