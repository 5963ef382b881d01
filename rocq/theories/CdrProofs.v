(** Least squares and the unwrapping of time interval errors. *)
From Coq Require Import ZArith Reals Bool List Lia Lra.
Import ListNotations.
From Verif Require Import Base Num RBool StatsModel CdrModel CdrSpec.
Local Open Scope R_scope.

(** *** Sums *)
Section Sums.
Context {X : Type}.
Implicit Types (f g : X -> R) (l : list X).
Definition sum f l : R := total (map f l).
Lemma sum_nil f : sum f [] = 0.
Proof. reflexivity. Qed.
Lemma sum_cons f a l : sum f (a :: l) = f a + sum f l.
Proof. reflexivity. Qed.
Lemma sum_add f g l : sum (fun x => f x + g x) l = sum f l + sum g l.
Proof. induction l as [|a l IH]; [rewrite !sum_nil; lra|]. rewrite !sum_cons, IH. lra. Qed.
Lemma sum_sub f g l : sum (fun x => f x - g x) l = sum f l - sum g l.
Proof. induction l as [|a l IH]; [rewrite !sum_nil; lra|]. rewrite !sum_cons, IH. lra. Qed.
Lemma sum_scal c f l : sum (fun x => c * f x) l = c * sum f l.
Proof. induction l as [|a l IH]; [rewrite !sum_nil; lra|]. rewrite !sum_cons, IH. lra. Qed.
Lemma sum_const c l : sum (fun _ => c) l = INR (length l) * c.
Proof. induction l as [|a l IH]; [rewrite sum_nil; cbn; lra|]. rewrite sum_cons, IH. cbn [length]. rewrite S_INR. lra. Qed.
Lemma sum_ext f g l : (forall x, In x l -> f x = g x) -> sum f l = sum g l.
Proof. intros E. unfold sum. f_equal. apply map_ext_in. exact E. Qed.
Lemma sum_nonneg f l : (forall x, In x l -> 0 <= f x) -> 0 <= sum f l.
Proof. induction l as [|a l IH]; intros P; [rewrite sum_nil; lra|]. rewrite sum_cons. pose proof (P a (or_introl eq_refl)). pose proof (IH (fun x h => P x (or_intror h))). lra. Qed.
Lemma sum_zero f l : (forall x, In x l -> 0 <= f x) -> sum f l = 0 -> forall x, In x l -> f x = 0.
Proof.
  induction l as [|a l IH]; intros P E x I; [destruct I|]. rewrite sum_cons in E.
  pose proof (P a (or_introl eq_refl)). pose proof (sum_nonneg f l (fun x h => P x (or_intror h))).
  destruct I as [<-|I]; [lra|]. apply IH; [intros y h; apply P; right; exact h|lra|exact I].
Qed.
Lemma sum_le f g l : (forall x, In x l -> f x <= g x) -> sum f l <= sum g l.
Proof. induction l as [|a l IH]; intros P; [rewrite !sum_nil; lra|]. rewrite !sum_cons. pose proof (P a (or_introl eq_refl)). pose proof (IH (fun x h => P x (or_intror h))). lra. Qed.
End Sums.

Lemma nsum_total (l : list R) : nsum l = total l.
Proof.
  unfold nsum. assert (E : forall a, fold_left nadd l a = a + total l); [|rewrite E; change (nofZ 0) with 0; ring].
  induction l as [|x l IH]; intros a; cbn [fold_left]; [unfold total; cbn; ring|]. rewrite IH. change (total (x :: l)) with (x + total l). cbn [nadd NumR]. ring.
Qed.
Lemma mean_eq (l : list R) : mean l = total l / INR (length l).
Proof. unfold mean. rewrite nsum_total. cbn. rewrite <- INR_IZR_INZ. reflexivity. Qed.

(** *** Least squares over a list of points *)
Section Fit.
Variable l : list (R * R).
Let n := INR (length l).
Let mx := sum fst l / n.
Let my := sum snd l / n.
Let sxx := sum (fun p => (fst p - mx) * (fst p - mx)) l.
Let sxy := sum (fun p => (fst p - mx) * (snd p - my)) l.
Definition err (a p : R) : R := sum (fun q => (snd q - a - fst q * p)²) l.
Hypothesis NE : l <> [].
Lemma n_pos : 0 < n.
Proof. destruct l; [congruence|]. apply lt_0_INR. cbn. lia. Qed.
Lemma centre_x : sum (fun p => fst p - mx) l = 0.
Proof. pose proof n_pos. rewrite sum_sub, sum_const. fold n. unfold mx. field. lra. Qed.
Lemma centre_y : sum (fun p => snd p - my) l = 0.
Proof. pose proof n_pos. rewrite sum_sub, sum_const. fold n. unfold my. field. lra. Qed.
(** Splitting of the error about the centre. *)
Lemma err_split a p : err a p = sum (fun q => (snd q - my - (fst q - mx) * p)²) l + n * (my - a - mx * p)².
Proof.
  unfold err.
  rewrite (sum_ext _ (fun q => (snd q - my - (fst q - mx) * p)² + (2 * (my - a - mx * p)) * ((snd q - my) - p * (fst q - mx)) + (my - a - mx * p)²)) by (intros q _; unfold Rsqr; ring).
  rewrite !sum_add, sum_const, sum_scal, sum_sub, sum_scal, centre_x, centre_y. fold n. ring.
Qed.
Lemma err_slope p : sum (fun q => (snd q - my - (fst q - mx) * p)²) l = sum (fun q => (snd q - my)²) l - 2 * p * sxy + p * p * sxx.
Proof.
  unfold sxx, sxy. rewrite <- !sum_scal, <- sum_sub, <- sum_add. apply sum_ext. intros q _. unfold Rsqr. ring.
Qed.
Lemma sxx_nonneg : 0 <= sxx.
Proof. apply sum_nonneg. intros x _. apply Rle_0_sqr. Qed.
Lemma sxx_zero : sxx = 0 -> forall p q, In p l -> In q l -> fst p = fst q.
Proof.
  intros Z p q Ip Iq.
  assert (E : forall x, In x l -> fst x = mx).
  { intros x I. pose proof (sum_zero _ _ (fun x _ => Rle_0_sqr (fst x - mx)) Z x I) as Q. apply Rsqr_0_uniq in Q. lra. }
  rewrite (E p Ip), (E q Iq). reflexivity.
Qed.
Lemma sxx_const c : (forall p, In p l -> fst p = c) -> sxx = 0.
Proof.
  intros E. pose proof n_pos.
  assert (M : mx = c). { unfold mx. rewrite (sum_ext _ (fun _ => c)) by exact E. rewrite sum_const. fold n. field. lra. }
  unfold sxx. rewrite (sum_ext _ (fun _ => 0)) by (intros p I; rewrite (E p I), M; ring). rewrite sum_const. lra.
Qed.
Hypothesis SX : sxx <> 0.
Lemma err_best : exists a, forall a' p', err a' p' = err a (sxy / sxx) + n * (my - a' - mx * p')² + (p' - sxy / sxx)² * sxx.
Proof.
  exists (my - mx * (sxy / sxx)). intros a' p'. rewrite !err_split, !err_slope.
  replace (my - (my - mx * (sxy / sxx)) - mx * (sxy / sxx)) with 0 by ring.
  unfold Rsqr. field. exact SX.
Qed.
Lemma fit_best : exists a, forall a' p', err a (sxy / sxx) <= err a' p'.
Proof.
  destruct err_best as (a & E). exists a. intros a' p'. rewrite (E a' p'). pose proof n_pos. pose proof sxx_nonneg.
  pose proof (Rmult_le_pos n _ ltac:(lra) (Rle_0_sqr (my - a' - mx * p'))).
  pose proof (Rmult_le_pos _ sxx (Rle_0_sqr (p' - sxy / sxx)) ltac:(lra)). lra.
Qed.
(** A fit with zero slope error bounds the distance of the slopes. *)
Lemma fit_near a' p' : (p' - sxy / sxx)² * sxx <= err a' p'.
Proof.
  destruct err_best as (a & E). rewrite (E a' p'). pose proof n_pos.
  pose proof (Rmult_le_pos n _ ltac:(lra) (Rle_0_sqr (my - a' - mx * p'))).
  assert (0 <= err a (sxy / sxx)) by (apply sum_nonneg; intros; apply Rle_0_sqr). lra.
Qed.
Lemma fit_unique a p : (forall a' p', err a p <= err a' p') -> p = sxy / sxx.
Proof.
  intros B. destruct err_best as (a0 & E).
  assert (Q : (p - sxy / sxx)² * sxx <= 0).
  { pose proof (B a0 (sxy / sxx)) as H. rewrite (E a p) in H. pose proof n_pos.
    pose proof (Rmult_le_pos n _ ltac:(lra) (Rle_0_sqr (my - a - mx * p))). lra. }
  pose proof sxx_nonneg. assert (P : 0 < sxx) by lra.
  assert (Z : (p - sxy / sxx)² = 0).
  { apply Rle_antisym; [|apply Rle_0_sqr]. apply Rmult_le_reg_r with sxx; [exact P|]. lra. }
  apply Rsqr_0_uniq in Z. lra.
Qed.
(** The model's slope. *)
Lemma slope_eq : slope (map fst l) (map snd l) = Ok (sxy / sxx).
Proof.
  pose proof n_pos. unfold slope. cbv zeta.
  assert (C : combine (map fst l) (map snd l) = l) by (clear; induction l as [|[a b] l' IH]; cbn; [reflexivity|rewrite IH; reflexivity]).
  rewrite C, !mean_eq, !map_length. rewrite map_map. fold n.
  assert (MX : total (map fst l) / n = mx) by reflexivity. assert (MY : total (map snd l) / n = my) by reflexivity. rewrite MX, MY.
  cbn [nsub nmul NumR].
  change (total (map (fun x : R * R => (fst x - mx) * (fst x - mx)) l)) with sxx.
  change (total (map (fun p : R * R => (fst p - mx) * (snd p - my)) l)) with sxy.
  unfold np_div. cbn [neq nofZ ndiv NumR].
  assert (Q : sxx / n <> 0). { intros Q. apply SX. apply (f_equal (fun v => v * n)) in Q. unfold Rdiv in Q. rewrite Rmult_assoc, Rinv_l, Rmult_0_l in Q by lra. lra. }
  rewrite (proj2 (Reqb_false _ _) Q). f_equal. field. split; [exact SX|lra].
Qed.
End Fit.

(** *** Unwrapping *)
Lemma floor_spec x : IZR (Int_part x) <= x < IZR (Int_part x) + 1.
Proof. destruct (base_Int_part x). lra. Qed.
Lemma floor_unique x k : IZR k <= x < IZR k + 1 -> Int_part x = k.
Proof.
  intros [L U]. pose proof (floor_spec x) as [L' U'].
  assert (A : (Int_part x < k + 1)%Z) by (apply lt_IZR; rewrite plus_IZR; lra).
  assert (B : (k < Int_part x + 1)%Z) by (apply lt_IZR; rewrite plus_IZR; lra). lia.
Qed.
Lemma mapM_all {X Y} (f : X -> result Y) (g : X -> Y) l : (forall x, In x l -> f x = Ok (g x)) -> mapM f l = Ok (map g l).
Proof. induction l as [|a l IH]; intros E; cbn; [reflexivity|]. rewrite (E a (or_introl eq_refl)), IH by (intros x h; apply E; right; exact h). reflexivity. Qed.
Lemma floor_div_R x t : t <> 0 -> floor_div Int_part x t = Ok (Int_part (x / t)).
Proof. intros NZ. unfold floor_div, np_div. cbn [neq nofZ NumR]. rewrite (proj2 (Reqb_false t 0) NZ). reflexivity. Qed.
Lemma fmod_R x t : t <> 0 -> fmod Int_part x t = Ok (x - IZR (Int_part (x / t)) * t).
Proof. intros NZ. unfold fmod. rewrite floor_div_R by exact NZ. reflexivity. Qed.
Lemma nabs_R x : nabs x = Rabs x.
Proof.
  unfold nabs. cbn [nlt nofZ nsub NumR]. destruct (Rltb x 0) eqn:E; [apply Rltb_true in E | apply Rltb_false in E].
  - rewrite Rabs_left by lra. lra.
  - rewrite Rabs_right by lra. reflexivity.
Qed.

Section Unwrap.
Variables e0 t : R.
Hypothesis T : 0 < t.
Definition nb (e : R) : Z := Int_part ((e - e0 + t / 2) / t).
Definition tv (e : R) : R := e - e0 + t / 2 - IZR (nb e) * t - t / 2.
Lemma tv_range e : - (t / 2) <= tv e < t / 2.
Proof.
  unfold tv, nb. pose proof (floor_spec ((e - e0 + t / 2) / t)) as [L U].
  assert (E : e - e0 + t / 2 = ((e - e0 + t / 2) / t) * t) by (field; lra).
  apply Rmult_le_compat_r with (r := t) in L; [|lra]. apply Rmult_lt_compat_r with (r := t) in U; [|lra]. rewrite <- E in *  . lra.
Qed.
Lemma tv_pos e : IZR (nb e) * t + tv e = e - e0.
Proof. unfold tv. ring. Qed.
Lemma nb_first : nb e0 = 0%Z.
Proof. unfold nb. replace ((e0 - e0 + t / 2) / t) with (1 / 2) by (field; lra). apply floor_unique. lra. Qed.
Lemma tv_first : tv e0 = 0.
Proof. unfold tv. rewrite nb_first. lra. Qed.
Definition sg (d : R) : Z := if Rltb (t / 2) d then 1%Z else if Rltb d (- (t / 2)) then (-1)%Z else 0%Z.
Lemma sg_small d : - t < d < t -> Rabs (d - IZR (sg d) * t) <= t / 2.
Proof.
  intros H. unfold sg. destruct (Rltb (t / 2) d) eqn:E1; [apply Rltb_true in E1 | apply Rltb_false in E1].
  - apply Rabs_le. lra.
  - destruct (Rltb d (- (t / 2))) eqn:E2; [apply Rltb_true in E2 | apply Rltb_false in E2]; apply Rabs_le; lra.
Qed.
Fixpoint walk (prev : R) (off : Z) (l : list R) : list (Z * R) :=
  match l with
  | [] => []
  | e :: l' => let off' := (off + sg (tv e - prev))%Z in ((nb e + off')%Z, tv e - IZR off' * t) :: walk (tv e) off' l'
  end.
Lemma walk_length l : forall p o, length (walk p o l) = length l.
Proof. induction l as [|e l IH]; intros; cbn; auto. Qed.
(** Each pair is a position. *)
Lemma walk_pos l : forall p o, Forall2 (fun e x => IZR (fst x) * t + snd x = e - e0) l (walk p o l).
Proof.
  induction l as [|e l IH]; intros p o; cbn [walk]; constructor; [|apply IH]. cbn [fst snd]. rewrite plus_IZR.
  pose proof (tv_pos e). lra.
Qed.
(** Adjacent ties are close, so adjacent numbers are nearest. *)
Lemma walk_numbered l : forall e o, numbered t (e :: l) ((nb e + o)%Z :: map fst (walk (tv e) o l)).
Proof.
  induction l as [|e' l IH]; intros e o; [exact I|]. cbn [walk map fst]. cbn [numbered]. split; [|apply IH].
  rewrite minus_IZR, !plus_IZR. pose proof (tv_pos e). pose proof (tv_pos e'). pose proof (tv_range e). pose proof (tv_range e').
  pose proof (sg_small (tv e' - tv e) ltac:(lra)) as S.
  replace (e' - e - (IZR (nb e') + (IZR o + IZR (sg (tv e' - tv e))) - (IZR (nb e) + IZR o)) * t) with (tv e' - tv e - IZR (sg (tv e' - tv e)) * t) by lra.
  exact S.
Qed.
End Unwrap.

(** The compiled loop. *)
Lemma loop_walk e0 t l : 0 < t -> forall o prev,
  unwrap_loop Int_part e0 t l o (- (IZR o * t)) prev = Ok (map fst (walk e0 t prev o l), map snd (walk e0 t prev o l)).
Proof.
  intros T. induction l as [|e l IH]; intros o prev; [reflexivity|]. cbn [unwrap_loop walk map fst snd]. cbv zeta.
  rewrite floor_div_R by lra. cbn [bind]. cbn [nadd nsub nmul ndiv nofZ nlt NumR].
  fold (nb e0 t e).
  assert (V : e - e0 - IZR (nb e0 t e) * t = tv e0 t e) by (unfold tv; ring). rewrite V.
  replace (0 - t / 2) with (- (t / 2)) by ring.
  set (d := tv e0 t e - prev).
  assert (S : (if Rltb d (- (t / 2)) then ((o - 1)%Z, - (IZR o * t) + t)
               else if Rltb (t / 2) d then ((o + 1)%Z, - (IZR o * t) - t) else (o, - (IZR o * t)))
              = ((o + sg t d)%Z, - (IZR (o + sg t d) * t))).
  { unfold sg. destruct (Rltb d (- (t / 2))) eqn:E1; [apply Rltb_true in E1 | apply Rltb_false in E1];
    (destruct (Rltb (t / 2) d) eqn:E2; [apply Rltb_true in E2 | apply Rltb_false in E2]); try (exfalso; lra).
    - f_equal. rewrite plus_IZR. ring.
    - f_equal. rewrite plus_IZR. ring.
    - rewrite Z.add_0_r. reflexivity. }
  rewrite S, IH. cbn [bind fst snd]. reflexivity.
Qed.

(** The fallback's repeated corrections. *)
Definition fstep (td : list R) (n : nat) (t : R) (st : list Z * list R) (d : nat) : list Z * list R :=
  let offset := repeat 0%Z (d + 1) ++ repeat 1%Z (n - d - 1) in
  let offset := match nth_error td d with
                | Some x => if nlt (nofZ 0) x then map Z.opp offset else offset
                | None => offset
                end in
  (add_offset Z.add (fst st) (map Z.opp offset), add_offset (fun x o => nadd x (nmul (nofZ o) t)) (snd st) offset).
Definition is_jump (t : R) (td : list R) (i : nat) : bool :=
  match nth_error td i with Some d => nlt (ndiv t (nofZ 2)) (nabs d) | None => false end.
Lemma fstep_shift x td n t b bs y ys d :
  fstep (x :: td) (S n) t (b :: bs, y :: ys) (S d) = (b :: fst (fstep td n t (bs, ys) d), y :: snd (fstep td n t (bs, ys) d)).
Proof.
  unfold fstep. cbv zeta. cbn [nth_error]. replace (S n - S d - 1)%nat with (n - d - 1)%nat by lia. cbn [Nat.add repeat app].
  set (off := repeat 0%Z (d + 1) ++ repeat 1%Z (n - d - 1)).
  destruct (nth_error td d) as [v|]; [destruct (nlt (nofZ 0) v)|]; unfold add_offset; cbn [map combine fst snd]; (f_equal; f_equal); try lia; cbn [nadd nmul nofZ NumR Z.opp]; ring.
Qed.
Lemma fold_shift x td n t ds : forall b bs y ys,
  fold_left (fstep (x :: td) (S n) t) (map S ds) (b :: bs, y :: ys)
  = (b :: fst (fold_left (fstep td n t) ds (bs, ys)), y :: snd (fold_left (fstep td n t) ds (bs, ys))).
Proof.
  induction ds as [|d ds IH]; intros; cbn [map fold_left]; [reflexivity|]. rewrite fstep_shift, IH.
  destruct (fstep td n t (bs, ys) d); reflexivity.
Qed.
Lemma add_offset_const {X} (f : X -> Z -> X) l c : add_offset f l (repeat c (length l)) = map (fun x => f x c) l.
Proof. unfold add_offset. induction l as [|a l IH]; cbn; [reflexivity|]. rewrite IH. reflexivity. Qed.
Lemma map_repeat {X Y} (f : X -> Y) x n : map f (repeat x n) = repeat (f x) n.
Proof. induction n; cbn; [reflexivity|]. f_equal. assumption. Qed.
Lemma fstep_zero x td t b bs y ys : length ys = length bs ->
  fstep (x :: td) (S (length bs)) t (b :: bs, y :: ys) 0
  = (let o := if nlt (nofZ 0) x then 1%Z else (-1)%Z in (b :: map (fun v => v + o)%Z bs, y :: map (fun v => v - IZR o * t) ys)).
Proof.
  intros L. unfold fstep. cbv zeta. cbn [nth_error Nat.add repeat app]. replace (S (length bs) - 0 - 1)%nat with (length bs) by lia.
  destruct (nlt (nofZ 0) x); cbn [map fst snd]; rewrite ?map_repeat;
  unfold add_offset; cbn [combine map fst snd];
  match goal with |- context [combine bs (repeat ?c _)] => fold (add_offset Z.add bs (repeat c (length bs))) end;
  match goal with |- context [combine ys (repeat ?c (length bs))] => rewrite <- L; fold (add_offset (fun x o => nadd x (nmul (nofZ o) t)) ys (repeat c (length ys))) end;
  rewrite L at 1; rewrite !add_offset_const; (f_equal; f_equal); try lia; try (cbn [nadd nmul nofZ NumR Z.opp]; ring);
  apply map_ext; intros v; cbn [nadd nmul nofZ NumR Z.opp]; ring.
Qed.
Lemma diff_length (l : list R) a : length (diff (a :: l)) = length l.
Proof. revert a. induction l as [|b l IH]; intros a; [reflexivity|]. cbn [diff length]. rewrite <- (IH b). reflexivity. Qed.
Lemma filter_map {X Y} (f : X -> Y) (P : Y -> bool) l : filter P (map f l) = map f (filter (fun x => P (f x)) l).
Proof. induction l as [|a l IH]; cbn; [reflexivity|]. destruct (P (f a)); cbn; rewrite IH; reflexivity. Qed.
Lemma fallback_walk e0 t l : 0 < t -> forall e o,
  let td := diff (map (tv e0 t) (e :: l)) in
  fold_left (fstep td (length (e :: l)) t) (filter (is_jump t td) (seq 0 (length td)))
    (map (fun x => nb e0 t x + o)%Z (e :: l), map (fun x => tv e0 t x - IZR o * t) (e :: l))
  = ((nb e0 t e + o)%Z :: map fst (walk e0 t (tv e0 t e) o l), (tv e0 t e - IZR o * t) :: map snd (walk e0 t (tv e0 t e) o l)).
Proof.
  intros T. induction l as [|e' l IH]; intros e o; cbv zeta; [reflexivity|].
  set (td' := diff (map (tv e0 t) (e' :: l))).
  assert (TD : diff (map (tv e0 t) (e :: e' :: l)) = (tv e0 t e' - tv e0 t e) :: td') by reflexivity.
  rewrite TD. cbn [length seq]. rewrite <- seq_shift. cbn [filter].
  set (d := tv e0 t e' - tv e0 t e).
  assert (J : is_jump t (d :: td') 0 = negb (sg t d =? 0)%Z).
  { unfold is_jump. cbn [nth_error]. rewrite nabs_R. cbn [nlt ndiv nofZ NumR]. unfold sg.
    destruct (Rltb (t / 2) d) eqn:E1; [apply Rltb_true in E1 | apply Rltb_false in E1].
    - rewrite (proj2 (Rltb_true _ _)); [reflexivity|]. rewrite Rabs_right; lra.
    - destruct (Rltb d (- (t / 2))) eqn:E2; [apply Rltb_true in E2 | apply Rltb_false in E2].
      + rewrite (proj2 (Rltb_true _ _)); [reflexivity|]. rewrite Rabs_left; lra.
      + rewrite (proj2 (Rltb_false _ _)); [reflexivity|]. apply Rabs_le. lra. }
  rewrite filter_map. rewrite (filter_ext _ (is_jump t td')) by reflexivity.
  rewrite J. cbn [walk map fst snd]. fold d.
  assert (STEP : forall b y, (if negb (sg t d =? 0)%Z then fstep (d :: td') (S (S (length l))) t (b :: map (fun x => nb e0 t x + o)%Z (e' :: l), y :: map (fun x => tv e0 t x - IZR o * t) (e' :: l)) 0
                 else (b :: map (fun x => nb e0 t x + o)%Z (e' :: l), y :: map (fun x => tv e0 t x - IZR o * t) (e' :: l)))
          = (b :: map (fun x => nb e0 t x + (o + sg t d))%Z (e' :: l), y :: map (fun x => tv e0 t x - IZR (o + sg t d) * t) (e' :: l))).
  { intros b y. destruct (sg t d =? 0)%Z eqn:Z.
    - apply Z.eqb_eq in Z. rewrite Z, Z.add_0_r. reflexivity.
    - cbn [negb].
      pose proof (fstep_zero d td' t b (map (fun x => nb e0 t x + o)%Z (e' :: l)) y (map (fun x => tv e0 t x - IZR o * t) (e' :: l)) ltac:(rewrite !map_length; reflexivity)) as F.
      rewrite map_length in F. cbn [length] in F. rewrite F. cbv zeta.
      assert (S : (if nlt (nofZ 0) d then 1%Z else (-1)%Z) = sg t d).
      { cbn [nlt nofZ NumR]. unfold sg in *  . destruct (Rltb (t / 2) d) eqn:E1; [apply Rltb_true in E1 | apply Rltb_false in E1].
        - rewrite (proj2 (Rltb_true _ _)); [reflexivity|lra].
        - destruct (Rltb d (- (t / 2))) eqn:E2; [apply Rltb_true in E2 | discriminate Z].
          rewrite (proj2 (Rltb_false _ _)); [reflexivity|lra]. }
      rewrite S, !map_map. f_equal; f_equal; apply map_ext; intros v; [lia|rewrite plus_IZR; ring]. }
  assert (FO : forall ds st, fold_left (fstep (d :: td') (S (S (length l))) t) (if negb (sg t d =? 0)%Z then 0%nat :: map S ds else map S ds) st
      = fold_left (fstep (d :: td') (S (S (length l))) t) (map S ds) (if negb (sg t d =? 0)%Z then fstep (d :: td') (S (S (length l))) t st 0 else st)).
  { intros ds st. destruct (negb (sg t d =? 0)%Z); reflexivity. }
  rewrite FO. change (map (fun x => (nb e0 t x + o)%Z) (e :: e' :: l)) with ((nb e0 t e + o)%Z :: map (fun x => (nb e0 t x + o)%Z) (e' :: l)).
  change (map (fun x => tv e0 t x - IZR o * t) (e :: e' :: l)) with ((tv e0 t e - IZR o * t) :: map (fun x => tv e0 t x - IZR o * t) (e' :: l)).
  rewrite STEP, fold_shift. specialize (IH e' (o + sg t d)%Z). cbv zeta in IH. fold td' in IH. cbn [length] in IH. rewrite IH. reflexivity.
Qed.
Lemma unwrap_walk e0 t l : 0 < t ->
  unwrap Int_part (e0 :: l) t = Ok (0%Z :: map fst (walk e0 t 0 0 l), 0 :: map snd (walk e0 t 0 0 l)).
Proof.
  intros T. unfold unwrap. cbn [get nth_error bind]. cbv zeta. cbn [ndiv nofZ nsub nadd NumR].
  rewrite (mapM_all _ (nb e0 t)) by (intros x _; apply floor_div_R; lra). cbn [bind].
  rewrite (mapM_all _ (fun e => e - e0 + t / 2 - IZR (nb e0 t e) * t)) by (intros x _; apply fmod_R; lra). cbn [bind].
  rewrite map_map. change (map (fun x => x - e0 + t / 2 - IZR (nb e0 t x) * t - t / 2) (e0 :: l)) with (map (tv e0 t) (e0 :: l)).
  pose proof (fallback_walk e0 t l T e0 0) as F. cbv zeta in F.
  rewrite (nb_first e0 t T), (tv_first e0 t T) in F.
  assert (E1 : map (fun x => (nb e0 t x + 0)%Z) (e0 :: l) = map (nb e0 t) (e0 :: l)) by (apply map_ext; intros; lia).
  assert (E2 : map (fun x => tv e0 t x - 0 * t) (e0 :: l) = map (tv e0 t) (e0 :: l)) by (apply map_ext; intros; ring).
  rewrite E1, E2 in F. f_equal. replace (0 - 0 * t) with 0 in F by ring. exact F.
Qed.

(** *** The refined period *)
Definition points (w : list (Z * R)) : list (R * R) := map (fun x => (IZR (fst x), snd x)) w.
Lemma detrend_slope compiled e0 l t : 0 < t ->
  let w := (0%Z, 0) :: walk e0 t 0 0 l in
  detrend Int_part compiled (e0 :: l) t = bind (slope (map fst (points w)) (map snd (points w))) (fun s => Ok (t + s)).
Proof.
  intros T w. unfold points. rewrite !map_map. cbn [fst snd].
  assert (M1 : map (fun x : Z * R => IZR (fst x)) w = map nofZ (0%Z :: map fst (walk e0 t 0 0 l))).
  { unfold w. cbn [map fst]. rewrite map_map. reflexivity. }
  assert (M2 : map (fun x : Z * R => snd x) w = 0 :: map snd (walk e0 t 0 0 l)) by reflexivity.
  rewrite M1, M2. destruct compiled; unfold detrend.
  - unfold detrend_ties_c. pose proof (loop_walk e0 t l T 0 0) as L. cbn [nofZ NumR].
    replace (- (0 * t)) with 0 in L by ring. rewrite L. reflexivity.
  - unfold detrend_ties. rewrite unwrap_walk by exact T. reflexivity.
Qed.
Lemma misfit_err e0 t l w : Forall2 (fun e x => IZR (fst x) * t + snd x = e - e0) l w -> forall c p,
  misfit l (map fst w) c p = err (points w) (c - e0) (p - t).
Proof.
  intros F c p. unfold misfit, err, sum, points. induction F as [|e x l w E F IH]; [reflexivity|]. cbn [map combine].
  unfold total in *  . cbn [fold_right fst snd]. rewrite IH. f_equal. f_equal. lra.
Qed.
Lemma misfit_points edges ks c p : misfit edges ks c p = err (combine (map IZR ks) edges) c p.
Proof.
  unfold misfit, err, sum. f_equal. revert edges. induction ks as [|k ks IH]; intros [|e edges]; cbn; try reflexivity. rewrite IH. reflexivity.
Qed.
Lemma misfit_shift edges ks s c p : misfit edges (map (fun k => k + s)%Z ks) c p = misfit edges ks (c + IZR s * p) p.
Proof.
  unfold misfit. f_equal. revert edges. induction ks as [|k ks IH]; intros [|e edges]; cbn; try reflexivity. rewrite IH, plus_IZR. f_equal. f_equal. ring.
Qed.
Lemma best_shift edges ks s p : best_period edges (map (fun k => k + s)%Z ks) p -> best_period edges ks p.
Proof.
  intros (c & B). exists (c + IZR s * p). intros c' p'. specialize (B (c' - IZR s * p') p'). rewrite !misfit_shift in B.
  replace (c' - IZR s * p' + IZR s * p') with c' in B by ring. exact B.
Qed.
Lemma walk_all e0 t l : 0 < t ->
  let w := (0%Z, 0) :: walk e0 t 0 0 l in
  Forall2 (fun e x => IZR (fst x) * t + snd x = e - e0) (e0 :: l) w /\ numbered t (e0 :: l) (map fst w).
Proof.
  intros T w. split.
  - constructor; [cbn; lra|]. apply walk_pos.
  - pose proof (walk_numbered e0 t T l e0 0) as W. rewrite nb_first, tv_first in W by exact T. exact W.
Qed.
Lemma detrend_general compiled edges t : 0 < t -> edges <> [] ->
  exists numbers, numbered t edges numbers /\ hd 1%Z numbers = 0%Z
    /\ (differ numbers -> exists p, detrend Int_part compiled edges t = Ok p /\ best_period edges numbers p)
    /\ (~ differ numbers -> detrend Int_part compiled edges t = Err UndefinedBehaviour).
Proof.
  intros T NE. destruct edges as [|e0 l]; [congruence|]. destruct (walk_all e0 t l T) as (F & N). cbv zeta in *  .
  set (w := (0%Z, 0) :: walk e0 t 0 0 l) in *  .
  exists (map fst w). split; [exact N|]. split; [reflexivity|].
  pose proof (detrend_slope compiled e0 l t T) as D. cbv zeta in D. fold w in D. rewrite D.
  assert (PN : points w <> []) by (unfold w; discriminate).
  split.
  - intros (a & b & Ia & Ib & AB).
    assert (SX : sum (fun p : R * R => (fst p - sum fst (points w) / INR (length (points w))) * (fst p - sum fst (points w) / INR (length (points w)))) (points w) <> 0).
    { intros SZ. apply AB. apply in_map_iff in Ia. apply in_map_iff in Ib. destruct Ia as (x & <- & Ix). destruct Ib as (y & <- & Iy).
      apply eq_IZR. exact (sxx_zero (points w) SZ _ _ (in_map (fun x => (IZR (fst x), snd x)) _ _ Ix) (in_map (fun x => (IZR (fst x), snd x)) _ _ Iy)). }
    rewrite (slope_eq (points w) PN SX). cbn [bind]. eexists. split; [reflexivity|].
    destruct (fit_best (points w) PN SX) as (a0 & B). exists (a0 + e0). intros c' p'. rewrite !(misfit_err e0 t _ _ F).
    match goal with |- err _ ?u ?v <= _ => replace u with a0 by ring; match v with ?x + ?y - ?x => replace (x + y - x) with y by ring end end.
    apply B.
  - intros ND. unfold slope. cbv zeta.
    assert (Z : mean (map (fun a : R => nmul (nsub a (mean (map fst (points w)))) (nsub a (mean (map fst (points w))))) (map fst (points w))) = 0).
    { rewrite !mean_eq, !map_map, !map_length.
      assert (S : sum (fun p : R * R => (fst p - sum fst (points w) / INR (length (points w))) * (fst p - sum fst (points w) / INR (length (points w)))) (points w) = 0).
      { apply (sxx_const (points w) PN 0). intros p I. apply in_map_iff in I. destruct I as (x & <- & Ix). cbn [fst].
        destruct (Z.eq_dec (fst x) 0) as [->|NZ]; [reflexivity|]. exfalso. apply ND. exists (fst x), 0%Z. split; [apply in_map; exact Ix|]. split; [left; reflexivity|exact NZ]. }
      match goal with |- ?u / _ = 0 => replace u with 0 end. unfold Rdiv. ring. }
    rewrite Z. unfold np_div. cbn [neq nofZ NumR]. rewrite (proj2 (Reqb_true 0 0) eq_refl). reflexivity.
Qed.
(** Clear numbers are determined up to the first. *)
Lemma numbered_unique t edges : forall ks ns, 0 < t -> clearly_numbered t edges ks -> numbered t edges ns ->
  exists s, ns = map (fun k => k + s)%Z ks.
Proof.
  induction edges as [|e1 edges IH]; intros ks ns T C N; [destruct C|].
  destruct edges as [|e2 edges].
  - destruct ks as [|k [|? ?]]; try destruct C. destruct ns as [|m [|? ?]]; try destruct N. exists (m - k)%Z. cbn. f_equal. lia.
  - destruct ks as [|k1 [|k2 ks]]; try destruct C as []. destruct ns as [|n1 [|n2 ns]]; try destruct N as [].
    destruct (IH (k2 :: ks) (n2 :: ns) T H0 H2) as (s & E). exists s. pose proof E as E'. cbn [map] in E'. injection E' as E1 _.
    cbn [map]. cbn [map] in E. rewrite E. f_equal.
    assert (D : Rabs (IZR ((n2 - n1) - (k2 - k1)) * t) < t).
    { rewrite minus_IZR. replace ((IZR (n2 - n1) - IZR (k2 - k1)) * t) with ((e2 - e1 - IZR (k2 - k1) * t) - (e2 - e1 - IZR (n2 - n1) * t)) by ring.
      eapply Rle_lt_trans; [apply Rabs_triang|]. rewrite Rabs_Ropp. lra. }
    rewrite Rabs_mult, (Rabs_right t) in D by lra.
    assert (D1 : Rabs (IZR ((n2 - n1) - (k2 - k1))) < 1). { apply Rmult_lt_reg_r with t; [exact T|]. lra. }
    apply Rabs_def2 in D1. destruct D1 as [U L]. apply lt_IZR in U. apply (lt_IZR (-1)) in L. lia.
Qed.
Lemma differ_shift s ks : differ ks -> differ (map (fun k => k + s)%Z ks).
Proof. intros (a & b & Ia & Ib & AB). exists (a + s)%Z, (b + s)%Z. split; [exact (in_map (fun k => k + s)%Z _ _ Ia)|]. split; [exact (in_map (fun k => k + s)%Z _ _ Ib)|lia]. Qed.
Lemma clearly_length t edges : forall ks, clearly_numbered t edges ks -> length ks = length edges.
Proof.
  induction edges as [|e1 edges IH]; intros ks C; [destruct C|].
  destruct edges as [|e2 edges]; destruct ks as [|k1 [|k2 ks]]; try destruct C as []; [reflexivity|]. cbn [length]. f_equal. exact (IH (k2 :: ks) H0).
Qed.
Lemma detrend_numbers compiled edges t ks : 0 < t -> clearly_numbered t edges ks -> differ ks ->
  exists p, detrend Int_part compiled edges t = Ok p /\ best_period edges ks p.
Proof.
  intros T C D. assert (NE : edges <> []) by (intros ->; destruct C).
  destruct (detrend_general compiled edges t T NE) as (ns & N & _ & G & _).
  destruct (numbered_unique t edges ks ns T C N) as (s & ->). destruct (G (differ_shift s ks D)) as (p & E & B).
  exists p. split; [exact E|]. apply best_shift with s. exact B.
Qed.
(** A period that fits better than all others is unique. *)
Lemma sxx_differ edges ks : length ks = length edges -> differ ks ->
  let l := combine (map IZR ks) edges in
  l <> [] /\ sum (fun p : R * R => (fst p - sum fst l / INR (length l)) * (fst p - sum fst l / INR (length l))) l <> 0.
Proof.
  intros L (a & b & Ia & Ib & AB) l.
  assert (IN : forall k, In k ks -> exists e, In (IZR k, e) l).
  { unfold l. clear -L. revert edges L. induction ks as [|k ks IH]; intros [|e edges] L q I; try discriminate L; [destruct I|].
    destruct I as [<-|I]; [exists e; left; reflexivity|]. destruct (IH edges ltac:(cbn in L; lia) q I) as (e' & I'). exists e'. right. exact I'. }
  destruct (IN a Ia) as (ea & Pa). destruct (IN b Ib) as (eb & Pb).
  split; [intros Q; rewrite Q in Pa; destruct Pa|].
  intros S. apply AB. apply eq_IZR. exact (sxx_zero l S _ _ Pa Pb).
Qed.
Lemma best_unique edges ks p q : length ks = length edges -> differ ks -> best_period edges ks p -> best_period edges ks q -> p = q.
Proof.
  intros L D (c & B) (c' & B'). destruct (sxx_differ edges ks L D) as (NE & SX). cbv zeta in *  .
  rewrite (fit_unique _ NE SX c p) by (intros a b; rewrite <- !misfit_points; apply B).
  rewrite (fit_unique _ NE SX c' q) by (intros a b; rewrite <- !misfit_points; apply B'). reflexivity.
Qed.
Lemma misfit_nonneg edges ks c p : 0 <= misfit edges ks c p.
Proof. rewrite misfit_points. apply sum_nonneg. intros. apply Rle_0_sqr. Qed.
Lemma ideal_best e0 T ks : best_period (ideal e0 T ks) ks T.
Proof.
  exists e0. intros c' p'. replace (misfit (ideal e0 T ks) ks e0 T) with 0; [apply misfit_nonneg|].
  unfold misfit, ideal. symmetry. induction ks as [|k ks IH]; [reflexivity|]. cbn [map combine]. unfold total in *  . cbn [fold_right fst snd]. rewrite IH.
  replace (e0 + IZR k * T - e0 - IZR k * T) with 0 by ring. unfold Rsqr. ring.
Qed.
(** The error is limited by the jitter. *)
Lemma best_near edges ks p e0 T : length ks = length edges -> differ ks -> best_period edges ks p ->
  (p - T)² * spread ks <= misfit edges ks e0 T.
Proof.
  intros L D (c & B). destruct (sxx_differ edges ks L D) as (NE & SX). cbv zeta in *  .
  assert (P : p = _) by (apply (fit_unique _ NE SX c p); intros a b; rewrite <- !misfit_points; apply B).
  pose proof (fit_near _ NE SX e0 T) as N. rewrite <- P in N. rewrite <- misfit_points in N.
  replace ((p - T)²) with ((T - p)²) by (unfold Rsqr; ring). eapply Rle_trans; [|exact N]. right. f_equal.
  unfold spread. cbv zeta. set (l := combine (map IZR ks) edges) in *  .
  assert (M : map fst l = map IZR ks).
  { unfold l. clear -L. revert edges L. induction ks as [|k ks IH]; intros [|e edges] L; try discriminate L; [reflexivity|]. cbn [map combine fst]. f_equal. apply IH. cbn in L. lia. }
  unfold sum at 2 3. rewrite M. assert (LL : length l = length ks) by (rewrite <- (map_length fst l), M, map_length; reflexivity). rewrite LL.
  set (m := total (map IZR ks) / INR (length ks)). unfold sum.
  rewrite <- (map_map fst (fun x => (x - m) * (x - m)) l), M, map_map. reflexivity.
Qed.
