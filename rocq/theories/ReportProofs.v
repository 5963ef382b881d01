(** Proofs about the reports of an eye diagram. *)
From Coq Require Import String ZArith Reals Bool List Lia Lra Sorting.Sorted.
Import ListNotations.
From Verif Require Import Base PyStr StatsModel Pam2Model EyeRunModel EyeImageModel ReportModel ReportSpec.
From Verif Require ImageModel.
Local Open Scope string_scope.
Local Open Scope list_scope.
Local Open Scope result_scope.

(** * The encoder *)
Lemma mapM_Forall2 : forall {X Y} (f : X -> result Y) l l', mapM f l = Ok l' -> Forall2 (fun x y => f x = Ok y) l l'.
Proof.
  induction l as [|x l IH]; intros l' E; cbn in E.
  - injection E as <-. constructor.
  - destruct (f x) eqn:F; [|discriminate]. destruct (mapM f l); [|discriminate]. injection E as <-. constructor; auto.
Qed.
Lemma Forall2_mapM : forall {X Y} (f : X -> result Y) l l', Forall2 (fun x y => f x = Ok y) l l' -> mapM f l = Ok l'.
Proof. induction 1 as [|x y l l' F _ IH]; cbn; [reflexivity|]. rewrite F, IH. reflexivity. Qed.
Lemma mapM_Err : forall {X Y} (f : X -> result Y) l e, mapM f l = Err e -> exists x, In x l /\ f x = Err e.
Proof.
  induction l as [|x l IH]; intros e E; cbn in E; [discriminate|].
  destruct (f x) eqn:F.
  - destruct (mapM f l); [discriminate|]. injection E as ->. destruct (IH e eq_refl) as (y & Iy & Fy). exists y; split; [right|]; assumption.
  - injection E as ->. exists x; split; [left; reflexivity|assumption].
Qed.
Lemma max_le : forall {X} (f : X -> nat) l x, In x l -> (f x <= fold_right Nat.max 0 (map f l))%nat.
Proof.
  induction l as [|y l IH]; intros x []; cbn.
  - subst. lia.
  - specialize (IH x H). lia.
Qed.

Section NdarrayInd.
Variable P : ndarray -> Prop.
Hypothesis P_float : forall x, P (AFloat x).
Hypothesis P_dim : forall l, Forall P l -> P (ADim l).
Fixpoint ndarray_induction (a : ndarray) : P a :=
  match a with
  | AFloat x => P_float x
  | ADim l => P_dim l ((fix go (l : list ndarray) : Forall P l :=
      match l with [] => Forall_nil P | x :: l => @Forall_cons _ P x l (ndarray_induction x) (go l) end) l)
  end.
End NdarrayInd.

Lemma depth_tolist : forall a, depth (tolist a) = array_depth a.
Proof.
  induction a as [x|l IH] using ndarray_induction; cbn; [reflexivity|]. f_equal. rewrite map_map.
  induction IH as [|x l Hx _ IH]; cbn; [reflexivity|]. rewrite Hx, IH. reflexivity.
Qed.

Lemma represents_tolist : forall a j, represents (tolist a) j -> listed a j.
Proof.
  induction a as [x|l IH] using ndarray_induction; cbn; intros j R; inversion R as [| |? | | |l1 l' F| | | | |]; subst.
  - constructor.
  - constructor. clear R. revert l' F. induction IH as [|x l Hx _ IH]; cbn; intros l' F; inversion F; subst; constructor; auto.
Qed.
Lemma listed_represents : forall a j, listed a j -> represents (tolist a) j.
Proof.
  induction a as [x|l IH] using ndarray_induction; cbn; intros j R; inversion R as [|l1 l' F]; subst.
  - constructor.
  - constructor. clear R. revert l' F. induction IH as [|x l Hx _ IH]; cbn; intros l' F; inversion F; subst; constructor; auto.
Qed.

Lemma encode_sound : forall allow fuel o j, encode fuel allow o = Ok j ->
  represents o j /\ (allow = false -> standard j).
Proof.
  intros allow. induction fuel as [|fuel IH]; intros o j E; [discriminate|].
  destruct o; cbn [encode] in E.
  - injection E as <-. split; constructor.
  - injection E as <-. split; constructor.
  - destruct x; cbn in E.
    + injection E as <-. split; constructor.
    + destruct allow; [|discriminate]. injection E as <-. split; [constructor|discriminate].
    + destruct allow; [|discriminate]. injection E as <-. split; [constructor|discriminate].
  - injection E as <-. split; constructor.
  - cbn [default] in E. unfold decode in E.
    destruct (forallb _ b) eqn:F; cbn in E; [|discriminate]. rewrite forallb_forall in F.
    destruct (IH _ _ E) as [R S]. split; [|exact S]. inversion R; subst. constructor. apply Forall_forall. intros c C. specialize (F c C).
    apply andb_true_iff in F. destruct F. lia.
  - destruct (mapM (encode fuel allow) l) as [l'|] eqn:M; cbn in E; [|discriminate]. injection E as <-.
    apply mapM_Forall2 in M. split.
    + constructor. clear - M IH. induction M as [|x y l l' F _ IH']; constructor; auto. apply (IH x y F).
    + intros ->. constructor. clear - M IH. induction M as [|x y l l' F _ IH']; constructor; auto. apply (IH x y F). reflexivity.
  - destruct (mapM _ l) as [l'|] eqn:M; cbn in E; [|discriminate]. injection E as <-.
    apply mapM_Forall2 in M. split.
    + constructor. clear - M IH. induction M as [|[k x] [k' y] l l' F _ IH']; [constructor|].
      cbn in F. destruct (encode fuel allow x) eqn:Ex; [|discriminate]. cbn in F.
      assert (k' = k) by congruence. assert (y = a) by congruence. subst. constructor; [|exact IH']. apply (IH x a Ex).
    + intros ->. constructor. clear - M IH. induction M as [|[k x] [k' y] l l' F _ IH']; constructor; auto. cbn in *.
      destruct (encode fuel false x) eqn:Ex; [|discriminate]. cbn in F. assert (y = a) by congruence. subst. apply (IH x a Ex). reflexivity.
  - destruct (IH _ _ E) as [R S]. split; [|exact S]. inversion R; subst.
    repeat match goal with H : entries _ _ _ |- _ => inversion H; clear H; subst | H : represents _ _ |- _ => inversion H; clear H; subst end.
    constructor.
  - destruct (IH _ _ E) as [R S]. split; [|exact S]. inversion R; subst. constructor.
  - destruct (IH _ _ E) as [R S]. split; [|exact S]. inversion R; subst. constructor.
  - destruct (IH _ _ E) as [R S]. split; [|exact S]. constructor. apply represents_tolist; assumption.
  - discriminate.
Qed.

Lemma encode_fuel : forall allow fuel o, (depth o <= fuel)%nat -> encode fuel allow o <> Err OutOfFuel.
Proof.
  intros allow. induction fuel as [|fuel IH]; intros o D E.
  - destruct o; cbn in D; lia.
  - destruct o; cbn [encode] in E; try discriminate.
    + destruct (finite x || allow); discriminate.
    + cbn [default] in E. unfold decode in E. destruct (forallb _ b); cbn in E; [|discriminate]. apply (IH (OStr b)); [cbn in *; lia|assumption].
    + destruct (mapM (encode fuel allow) l) eqn:M; cbn in E; [discriminate|]. injection E as ->.
      destruct (mapM_Err _ _ _ M) as (x & X & F). apply (IH x); [|exact F]. cbn in D. pose proof (max_le depth l x X). lia.
    + destruct (mapM _ l) eqn:M; cbn in E; [discriminate|]. injection E as ->.
      destruct (mapM_Err _ _ _ M) as ([k x] & X & F). cbn in F. apply (IH x); [|destruct (encode fuel allow x); cbn in F; congruence].
      cbn in D. pose proof (max_le (fun kv => depth (snd kv)) l (k, x) X). cbn in *. lia.
    + refine (IH _ _ E). cbn in *; lia.
    + refine (IH _ _ E). cbn in *; lia.
    + refine (IH _ _ E). cbn in *; lia.
    + refine (IH _ _ E). rewrite depth_tolist. cbn in D. lia.
Qed.

Lemma Forall2_Forall_r : forall {X Y} (R : X -> Y -> Prop) (P : Y -> Prop) l l', Forall2 R l l' -> Forall P l' -> Forall2 (fun x y => R x y /\ P y) l l'.
Proof. induction 1; intros F; inversion F; subst; constructor; auto. Qed.

Lemma encode_complete : forall allow fuel o j, represents o j -> (depth o <= fuel)%nat ->
  (allow = false -> standard j) -> encode fuel allow o = Ok j.
Proof.
  intros allow. induction fuel as [|fuel IH]; intros o j R D S; [destruct o; cbn in D; lia|].
  inversion R; subst; cbn [encode].
  - reflexivity.
  - reflexivity.
  - destruct allow; [rewrite orb_true_r; reflexivity|]. specialize (S eq_refl). inversion S; subst. reflexivity.
  - reflexivity.
  - cbn [default]. unfold decode.
    replace (forallb _ b) with true.
    + cbn. apply IH; [constructor|cbn in *; lia|exact S].
    + symmetry. apply forallb_forall. intros c C. rewrite Forall_forall in H. specialize (H c C). apply andb_true_iff. split; [apply Z.leb_le|apply Z.ltb_lt]; lia.
  - assert (M : mapM (encode fuel allow) l = Ok l'); [|rewrite M; reflexivity]. apply Forall2_mapM.
    assert (D' : Forall (fun x => (depth x <= fuel)%nat) l).
    { apply Forall_forall. intros x X. pose proof (max_le depth l x X). cbn in D. lia. }
    assert (S' : allow = false -> Forall standard l') by (intros A; specialize (S A); inversion S; assumption).
    clear - H D' S' IH. induction H as [|x y l l' F _ IH']; constructor.
    + inversion D'; subst. apply IH; [assumption|assumption|]. intros A. specialize (S' A). inversion S'; assumption.
    + inversion D'; subst. apply IH'; [assumption|]. intros A. specialize (S' A). inversion S'; assumption.
  - match goal with |- context [mapM ?f l] => assert (M : mapM f l = Ok l'); [|rewrite M; reflexivity] end. apply Forall2_mapM.
    assert (D' : Forall (fun kv => (depth (snd kv) <= fuel)%nat) l).
    { apply Forall_forall. intros x X. pose proof (max_le (fun kv => depth (snd kv)) l x X). cbn in *. lia. }
    assert (S' : allow = false -> Forall (fun kv => standard (snd kv)) l') by (intros A; specialize (S A); inversion S; assumption).
    clear - H D' S' IH. induction H as [|k x y l l' F _ IH']; constructor.
    + inversion D'; subst. cbn in *. rewrite (IH x y); [reflexivity|assumption|assumption|]. intros A. specialize (S' A). inversion S'; assumption.
    + inversion D'; subst. apply IH'; [assumption|]. intros A. specialize (S' A). inversion S'; assumption.
  - apply IH; [|cbn in *; lia|exact S]. repeat constructor.
  - apply IH; [|cbn in *; lia|exact S]. repeat constructor.
  - apply IH; [|cbn in *; lia|exact S]. repeat constructor.
  - cbn. apply IH; [apply listed_represents; assumption|rewrite depth_tolist; cbn in D; lia|exact S].
Qed.

(** * Names *)
Lemma eqb_eq : forall a b, str_eqb a b = true <-> a = b.
Proof.
  induction a as [|x a IH]; intros [|y b]; cbn; split; intros H; try congruence.
  - apply andb_true_iff in H. destruct H as [H1 H2]. apply Z.eqb_eq in H1. apply IH in H2. congruence.
  - injection H as -> ->. rewrite Z.eqb_refl. apply IH. reflexivity.
Qed.
Lemma eqb_refl : forall a, str_eqb a a = true.
Proof. intros a. apply eqb_eq. reflexivity. Qed.
Definition lt_name (a b : pystr) : Prop := str_ltb a b = true.
Lemma ltb_irrefl : forall a, str_ltb a a = false.
Proof. induction a as [|x a IH]; cbn; [reflexivity|]. rewrite Z.ltb_irrefl, Z.eqb_refl, IH. reflexivity. Qed.
Lemma ltb_trans : forall a b c, lt_name a b -> lt_name b c -> lt_name a c.
Proof.
  unfold lt_name. induction a as [|x a IH]; intros [|y b] [|z c]; cbn; intros H1 H2; try congruence.
  apply orb_true_iff in H1, H2. apply orb_true_iff.
  destruct H1 as [H1|H1]; destruct H2 as [H2|H2].
  - left. apply Z.ltb_lt in H1, H2. apply Z.ltb_lt. lia.
  - left. apply andb_true_iff in H2. destruct H2 as [H2 _]. apply Z.eqb_eq in H2. apply Z.ltb_lt in H1. apply Z.ltb_lt. lia.
  - left. apply andb_true_iff in H1. destruct H1 as [H1 _]. apply Z.eqb_eq in H1. apply Z.ltb_lt in H2. apply Z.ltb_lt. lia.
  - right. apply andb_true_iff in H1, H2. destruct H1 as [H1 L1], H2 as [H2 L2]. apply Z.eqb_eq in H1, H2. apply andb_true_iff. split; [apply Z.eqb_eq; lia|eauto].
Qed.
Lemma ltb_total : forall a b, str_ltb a b = false -> str_eqb a b = false -> lt_name b a.
Proof.
  unfold lt_name. induction a as [|x a IH]; intros [|y b]; cbn; intros H1 H2; try congruence; try reflexivity.
  apply orb_false_iff in H1. destruct H1 as [H1 H3]. apply Z.ltb_ge in H1.
  destruct (Z.eq_dec x y) as [->|N].
  - rewrite Z.eqb_refl in *. cbn in *. rewrite (IH b H3 H2), orb_true_r. reflexivity.
  - apply orb_true_iff. left. apply Z.ltb_lt. lia.
Qed.

Lemma insert_In : forall k l x, In x (insert_name k l) <-> x = k \/ In x l.
Proof.
  induction l as [|y l IH]; intros x; cbn [insert_name].
  - cbn. intuition.
  - destruct (str_ltb k y); [cbn; intuition|].
    destruct (str_eqb k y) eqn:E.
    + apply eqb_eq in E. subst. cbn. intuition.
    + cbn. rewrite IH. intuition.
Qed.
Lemma insert_sorted : forall k l, StronglySorted lt_name l -> StronglySorted lt_name (insert_name k l).
Proof.
  induction l as [|y l IH]; intros S; cbn [insert_name].
  - repeat constructor.
  - destruct (str_ltb k y) eqn:L.
    + constructor; [assumption|]. inversion S; subst. constructor; [exact L|]. eapply Forall_impl; [|eassumption]. intros z Z. eapply ltb_trans; eauto.
    + destruct (str_eqb k y) eqn:E; [assumption|]. inversion S; subst. constructor; [auto|].
      apply Forall_forall. intros x X. apply insert_In in X. destruct X as [->|X]; [apply ltb_total; assumption|].
      rewrite Forall_forall in *. auto.
Qed.
Lemma dir_sorted : forall o, StronglySorted lt_name (dir o).
Proof. intros o. unfold dir. induction (_ ++ _) as [|k l IH]; cbn; [constructor|]. apply insert_sorted; assumption. Qed.
Lemma dir_In : forall o k, In k (dir o) <-> In k (map fst (instance o)) \/ In k (methods o) \/ In k (map fst (properties o)).
Proof.
  intros o k. unfold dir. rewrite <- !in_app_iff. induction (_ ++ _) as [|x l IH]; cbn; [reflexivity|].
  rewrite insert_In, IH. intuition.
Qed.
Lemma sorted_NoDup : forall l, StronglySorted lt_name l -> NoDup l.
Proof.
  induction 1 as [|x l S IH F]; constructor; auto. intros X. rewrite Forall_forall in F. specialize (F x X). unfold lt_name in F. rewrite ltb_irrefl in F. discriminate.
Qed.
Lemma sorted_filter : forall f l, StronglySorted lt_name l -> StronglySorted lt_name (filter f l).
Proof.
  induction 1 as [|x l S IH F]; cbn; [constructor|]. destruct (f x); [|assumption]. constructor; [assumption|].
  apply Forall_forall. intros y Y. apply filter_In in Y. rewrite Forall_forall in F. apply F, Y.
Qed.

Lemma lookup_In : forall {X} k (l : list (pystr * X)) x, lookup k l = Some x -> In (k, x) l.
Proof.
  induction l as [|[k' x'] l IH]; cbn; intros x E; [discriminate|].
  destruct (str_eqb k k') eqn:K; [apply eqb_eq in K; left; congruence|right; auto].
Qed.
Lemma lookup_None : forall {X} k (l : list (pystr * X)), lookup k l = None <-> ~ In k (map fst l).
Proof.
  induction l as [|[k' x'] l IH]; cbn; [intuition|].
  destruct (str_eqb k k') eqn:K.
  - apply eqb_eq in K. subst. intuition congruence.
  - rewrite IH. split; intros H; [|tauto]. intros [->|I]; [rewrite eqb_refl in K; discriminate|tauto].
Qed.
Lemma is_method_In : forall o k, is_method o k = true <-> In k (methods o).
Proof.
  intros o k. unfold is_method. rewrite existsb_exists. split.
  - intros (x & X & E). apply eqb_eq in E. subst. assumption.
  - intros I. exists k. split; [assumption|apply eqb_refl].
Qed.

Definition shown (o : pyobject) (exclude_images : bool) (k : pystr) : bool :=
  negb (startswith (str "_") k) && negb (exclude_images && startswith (str "image") k) && negb (is_method o k).
Definition attr (o : pyobject) (k : pystr) : obj := match getattr o k with Ok x => x | Err _ => ONone end.
Lemma getattr_Ok : forall o k, In k (dir o) -> is_method o k = false -> getattr o k = Ok (attr o k).
Proof.
  intros o k I M. apply dir_In in I. unfold attr, getattr.
  destruct (lookup k (properties o)) eqn:P; [reflexivity|].
  destruct (lookup k (instance o)) eqn:N; [reflexivity|]. exfalso.
  apply lookup_None in P, N. destruct I as [I|[I|I]]; [tauto| |tauto]. apply is_method_In in I. congruence.
Qed.
Lemma to_dict_list : forall o ex, to_dict o ex = Ok (map (fun k => (k, attr o k)) (filter (shown o ex) (dir o))).
Proof.
  intros o ex. unfold to_dict.
  enough (G : forall l d, (forall k, In k l -> In k (dir o)) ->
    foldM (fun d key =>
      if startswith (str "_") key then Ok d
      else if ex && startswith (str "image") key then Ok d
      else if is_method o key then Ok d
      else item <- getattr o key ;; Ok (d ++ [(key, item)])) d l
    = Ok (d ++ map (fun k => (k, attr o k)) (filter (shown o ex) l))) by (rewrite G; auto).
  induction l as [|k l IH]; intros d I.
  - cbn. rewrite app_nil_r. reflexivity.
  - assert (I' : forall k, In k l -> In k (dir o)) by (intros; apply I; right; assumption).
    cbn [foldM filter]. unfold shown at 1.
    destruct (startswith (str "_") k); [apply IH; exact I'|].
    destruct (ex && startswith (str "image") k); [apply IH; exact I'|].
    destruct (is_method o k) eqn:M; [apply IH; exact I'|].
    rewrite (getattr_Ok o k); [|apply I; left; reflexivity|exact M]. cbn.
    rewrite IH by exact I'. rewrite <- app_assoc. reflexivity.
Qed.

(** * Fields of documents *)
Lemma field_entries : forall (l : list (pystr * obj)) l' k j, entries represents l l' -> field (JObject l') k = Some j ->
  exists x, In (k, x) l /\ represents x j.
Proof.
  intros l l' k j. induction 1 as [|k' x y l l' R E IH]; cbn [field find option_map fst snd]; [discriminate|].
  destruct (list_eq_dec Z.eq_dec k' k) as [->|N]; cbn [field find option_map fst snd]; intros F.
  - injection F as <-. exists x. split; [left; reflexivity|assumption].
  - destruct (IH F) as (z & I & Rz). exists z. split; [right|]; assumption.
Qed.
Lemma entries_field : forall (l : list (pystr * obj)) l' k x, entries represents l l' -> NoDup (map fst l) -> In (k, x) l ->
  exists j, field (JObject l') k = Some j /\ represents x j.
Proof.
  intros l l' k x. induction 1 as [|k' x' y l l' R E IH]; cbn [field find option_map fst snd map In]; intros D I; [destruct I|].
  inversion D as [|? ? N D']; subst. destruct I as [I|I].
  - injection I as -> ->. destruct (list_eq_dec Z.eq_dec k k); [|congruence]. exists y. split; [reflexivity|assumption].
  - destruct (list_eq_dec Z.eq_dec k' k) as [->|M].
    + exfalso. apply N. change k with (fst (k, x)). apply in_map. assumption.
    + apply IH; assumption.
Qed.
Lemma entries_names : forall (l : list (pystr * obj)) l', entries represents l l' -> map fst l' = map fst l.
Proof. induction 1; cbn; congruence. Qed.

Lemma represents_fun : forall o j j', represents o j -> represents o j' -> j = j'.
Proof.
  intros o j j' R R'.
  pose proof (encode_complete true (depth o) o j R (le_n _) ltac:(discriminate)).
  pose proof (encode_complete true (depth o) o j' R' (le_n _) ltac:(discriminate)). congruence.
Qed.
Definition encodable (x : obj) : Prop := exists j, represents x j.
Definition strict (x : obj) : Prop := exists j, represents x j /\ standard j.
Lemma dict_encodable : forall l, encodable (ODict l) <-> Forall (fun kv => encodable (snd kv)) l.
Proof.
  intros l. split.
  - intros [j R]. inversion R; subst. match goal with H : entries _ _ _ |- _ => clear R; induction H; constructor; auto end. eexists; eassumption.
  - intros F. enough (exists l', entries represents l l') as [l' E] by (exists (JObject l'); constructor; assumption).
    induction F as [|[k x] l [j R] F [l' E]]; [exists []; constructor|]. exists ((k, j) :: l'). constructor; assumption.
Qed.
Lemma dict_strict : forall l, strict (ODict l) <-> Forall (fun kv => strict (snd kv)) l.
Proof.
  intros l. split.
  - intros (j & R & S). inversion R; subst. inversion S; subst.
    match goal with H : entries _ _ _ |- _ => clear R S; induction H; constructor; auto end.
    + match goal with H : Forall _ (_ :: _) |- _ => inversion H; subst end. eexists; split; eassumption.
    + match goal with H : Forall _ (_ :: _) |- _ => inversion H; subst end. auto.
  - intros F. enough (exists l', entries represents l l' /\ Forall (fun kv => standard (snd kv)) l') as (l' & E & S).
    { exists (JObject l'). split; constructor; assumption. }
    induction F as [|[k x] l (j & R & S) F (l' & E & S')]; [exists []; split; constructor|].
    exists ((k, j) :: l'). split; constructor; assumption.
Qed.

Lemma existsb_In : forall k l, existsb (str_eqb k) l = true -> In k l.
Proof. intros k l E. apply existsb_exists in E. destruct E as (x & X & E). apply eqb_eq in E. subst. assumption. Qed.
Lemma forallb_incl : forall l l', forallb (fun k => existsb (str_eqb k) l') l = true -> forall k, In k l -> In k l'.
Proof. intros l l' F k K. rewrite forallb_forall in F. apply existsb_In, F, K. Qed.

(** The dictionary of an object and a condition on its values. *)
Definition dict_of (o : pyobject) (ex : bool) : list (pystr * obj) := map (fun k => (k, attr o k)) (filter (shown o ex) (dir o)).
Lemma dict_names : forall o ex, map fst (dict_of o ex) = filter (shown o ex) (dir o).
Proof. intros o ex. unfold dict_of. rewrite map_map. cbn. apply map_id. Qed.
Lemma dict_NoDup : forall o ex, NoDup (map fst (dict_of o ex)).
Proof. intros o ex. rewrite dict_names. apply sorted_NoDup, sorted_filter, dir_sorted. Qed.
Lemma attr_cases : forall o k, In k (dir o) -> is_method o k = false -> In (k, attr o k) (instance o ++ properties o).
Proof.
  intros o k I M. pose proof (getattr_Ok o k I M) as G. unfold getattr in G. rewrite in_app_iff.
  destruct (lookup k (properties o)) eqn:P.
  - right. apply lookup_In in P. congruence.
  - left. destruct (lookup k (instance o)) eqn:N; [|discriminate]. apply lookup_In in N. congruence.
Qed.
Lemma dict_all : forall (P : obj -> Prop) o ex,
  Forall (fun kv => shown o ex (fst kv) = false \/ P (snd kv)) (instance o ++ properties o) ->
  Forall (fun kv => P (snd kv)) (dict_of o ex).
Proof.
  intros P o ex F. apply Forall_forall. intros [k x] I. unfold dict_of in I. apply in_map_iff in I.
  destruct I as (k' & E & K). injection E as -> <-. apply filter_In in K. destruct K as [D S].
  assert (M : is_method o k = false).
  { unfold shown in S. destruct (is_method o k); [|reflexivity]. rewrite andb_false_r in S. discriminate. }
  pose proof (attr_cases o k D M) as A. rewrite Forall_forall in F. destruct (F _ A) as [H|H]; cbn in *; [congruence|assumption].
Qed.

(** * Measures *)
Section Measures.
Variable png64 : Z -> bitmap -> list Z.
Variable size : Z.
Hypothesis ascii : forall b, Forall (fun c => 0 <= c < 128)%Z (png64 size b).
Variable m : measures.
Variable im : option images.
Let o := measures_object png64 size m im.

Lemma uncertain_enc : forall u, encodable (uncertain u).
Proof. intros [u|]; eexists; constructor. Qed.
Lemma of_y_enc : forall f, encodable (of_y m f).
Proof. intros f. unfold of_y. destruct (in_y m); [apply uncertain_enc|eexists; constructor]. Qed.
Lemma of_t_enc : forall f, encodable (of_t m f).
Proof. intros f. unfold of_t. destruct (in_t m); [apply uncertain_enc|eexists; constructor]. Qed.
Lemma of_tf_enc : forall f, encodable (of_t_float m f).
Proof. intros f. unfold of_t_float. destruct (in_t m); eexists; constructor. Qed.
Lemma listed_floats : forall l, listed (float_array l) (JArray (map (fun x => JFloat (PReal x)) l)).
Proof. intros l. constructor. induction l; cbn; constructor; auto. constructor. Qed.
Definition bathtub_json (curves : option (list (list R * list R))) : jvalue :=
  match curves with
  | None => JNull
  | Some [] => JObject []
  | Some ((ts, bers) :: _) =>
      JObject [(str "Eye 0", JArray [JArray (map (fun t => JFloat (PReal t)) ts); JArray (map (fun b => JFloat (PReal b)) bers)])]
  end.
Lemma bathtub_rep : forall c, represents (bathtub_obj c) (bathtub_json c).
Proof.
  intros [[|[ts bers] l]|]; cbn.
  - repeat constructor.
  - constructor. constructor; [|destruct l; constructor]. constructor. constructor. constructor; [apply listed_floats|]. constructor; [apply listed_floats|constructor].
  - constructor.
Qed.
Lemma bathtub_std : forall c, standard (bathtub_json c).
Proof.
  intros [[|[ts bers] l]|]; cbn; try (repeat constructor; fail).
  constructor. constructor; [|constructor]. cbn. constructor.
  constructor; [|constructor; [|constructor]]; constructor; apply Forall_forall; intros x X; apply in_map_iff in X; destruct X as (y & <- & _); constructor.
Qed.
Lemma transition_rep : represents (transition_obj (transition_dist m))
  (JObject (map (fun kq => (str (fst kq), JInt (transition_dist m (snd kq)))) transition_keys)).
Proof. repeat constructor. Qed.
Lemma image_enc : forall f, encodable (image_property png64 size (option_map f im)).
Proof. intros f. unfold image_property. destruct im; cbn; [eexists; constructor; apply ascii|eexists; constructor]. Qed.

Lemma measures_encodable : forall ex, encodable (ODict (dict_of o ex)).
Proof.
  intros ex. apply dict_encodable, dict_all. subst o. unfold measures_object. cbn [instance properties app].
  repeat (apply Forall_cons;
    [first [left; reflexivity
           | right; cbn [snd]; first [apply of_y_enc | apply of_t_enc | apply of_tf_enc | apply image_enc
               | eexists; apply bathtub_rep | eexists; apply transition_rep | eexists; constructor
               | destruct (in_t m); [first [destruct (n_sym_bad m); eexists; constructor | eexists; constructor]|eexists; constructor]]]|]).
  apply Forall_nil.
Qed.

Lemma names_ex : forall ex k, In k (filter (shown o ex) (dir o)) <-> exists s, In s (report_names ex) /\ k = str s.
Proof.
  intros ex k. transitivity (In k (map str (report_names ex))).
  - split; apply forallb_incl; subst o; unfold measures_object; destruct ex, im; vm_compute; reflexivity.
  - rewrite in_map_iff. split; intros (s & A & B); exists s; auto.
Qed.

Section Doc.
Variable ex : bool.
Variable doc : jvalue.
Hypothesis rep : represents (ODict (dict_of o ex)) doc.

Lemma doc_field : forall s x, In s (report_names ex) -> attr o (str s) = x ->
  exists j, field doc (str s) = Some j /\ represents x j.
Proof.
  intros s x I A. inversion rep as [| | | | | |l l' E| | | |]; subst. eapply entries_field; [eassumption|apply dict_NoDup|].
  unfold dict_of. apply in_map_iff. exists (str s). split; [reflexivity|]. apply names_ex. exists s. split; [assumption|reflexivity].
Qed.
Lemma doc_names : names_of doc = filter (shown o ex) (dir o).
Proof. inversion rep as [| | | | | |l l' E| | | |]; subst. cbn [names_of]. rewrite (entries_names _ _ E). apply dict_names. Qed.

Lemma uncertain_field : forall u j, represents (uncertain u) j -> stores_uncertain j u.
Proof. intros [u|] j R; inversion R; subst; repeat split. Qed.

Ltac in_names := unfold report_names; cbn; tauto.
Lemma doc_stores : stores png64 size ex m im doc.
Proof.
  split.
  - intros name. rewrite doc_names. apply names_ex.
  - rewrite doc_names. apply sorted_NoDup, sorted_filter, dir_sorted.
  - intros name f I.
    assert (In name (report_names ex)) as N.
    { unfold report_names. rewrite !in_app_iff. left. change name with (fst (name, f)). apply in_map, I. }
    assert (attr o (str name) = of_y m f) as A.
    { unfold y_measures in I. cbn [In] in I. repeat (destruct I as [I|I]; [injection I as <- <-; reflexivity|]). destruct I. }
    destruct (doc_field name _ N A) as (j & F & R). exists j. split; [exact F|]. unfold of_y in R.
    destruct (in_y m); [apply uncertain_field; assumption|inversion R; reflexivity].
  - intros name f I.
    assert (In name (report_names ex)) as N.
    { unfold report_names. rewrite !in_app_iff. right; left. change name with (fst (name, f)). apply in_map, I. }
    assert (attr o (str name) = of_t m f) as A.
    { unfold t_measures in I. cbn [In] in I. repeat (destruct I as [I|I]; [injection I as <- <-; reflexivity|]). destruct I. }
    destruct (doc_field name _ N A) as (j & F & R). exists j. split; [exact F|]. unfold of_t in R.
    destruct (in_t m); [apply uncertain_field; assumption|inversion R; reflexivity].
  - intros name f I.
    assert (In name (report_names ex)) as N.
    { unfold report_names. rewrite !in_app_iff. right; right; left. change name with (fst (name, f)). apply in_map, I. }
    assert (attr o (str name) = of_t_float m f) as A.
    { unfold jitters in I. cbn [In] in I. repeat (destruct I as [I|I]; [injection I as <- <-; reflexivity|]). destruct I. }
    destruct (doc_field name _ N A) as (j & F & R). rewrite F. f_equal. unfold of_t_float in R.
    destruct (in_t m); inversion R; reflexivity.
  - destruct (doc_field "n_samples" (OInt (n_samples m)) ltac:(in_names) eq_refl) as (j & F & R). rewrite F. inversion R; reflexivity.
  - destruct (doc_field "n_sym" (OInt (n_sym m)) ltac:(in_names) eq_refl) as (j & F & R). rewrite F. inversion R; reflexivity.
  - destruct (doc_field "n_sym_bad" _ ltac:(in_names) eq_refl) as (j & F & R). rewrite F. change (attr o (str "n_sym_bad")) with
      (match in_t m with None => ONone | Some _ => match n_sym_bad m with Some n => OInt (Z.of_nat n) | None => OFloat PNan end end) in R.
    destruct (in_t m); [destruct (n_sym_bad m)|]; inversion R; reflexivity.
  - destruct (doc_field "mask_margin" _ ltac:(in_names) eq_refl) as (j & F & R). rewrite F. change (attr o (str "mask_margin")) with
      (match in_t m with None => ONone | Some _ => OFloat (float_or_nan (mask_margin m)) end) in R.
    destruct (in_t m); inversion R; reflexivity.
  - destruct (doc_field "transition_dist" (transition_obj (transition_dist m)) ltac:(in_names) eq_refl) as (j & F & R).
    exists j. split; [exact F|]. rewrite (represents_fun _ _ _ R transition_rep). intros [] [] []; reflexivity.
  - destruct (doc_field "bathtub_curves" (bathtub_obj (bathtub_curve m)) ltac:(in_names) eq_refl) as (j & F & R).
    exists j. split; [exact F|]. rewrite (represents_fun _ _ _ R (bathtub_rep _)).
    destruct (bathtub_curve m) as [[|[ts bers] l]|]; reflexivity.
  - intros EX name f I.
    assert (In name (report_names ex)) as N.
    { unfold report_names. rewrite EX, !in_app_iff. right; right; right; right. change name with (fst (name, f)). apply in_map, I. }
    assert (attr o (str name) = image_property png64 size (option_map f im)) as A.
    { unfold image_names in I. cbn [In] in I. repeat (destruct I as [I|I]; [injection I as <- <-; reflexivity|]). destruct I. }
    destruct (doc_field name _ N A) as (j & F & R). rewrite F. destruct im; inversion R; reflexivity.
Qed.
End Doc.

Lemma attr_strict : forall ex s x, strict (ODict (dict_of o ex)) -> In s (report_names ex) -> attr o (str s) = x -> strict x.
Proof.
  intros ex s x S I A. apply dict_strict in S. rewrite Forall_forall in S. subst x. apply (S (str s, attr o (str s))).
  unfold dict_of. apply in_map_iff. exists (str s). split; [reflexivity|]. apply names_ex. exists s. split; [assumption|reflexivity].
Qed.
Lemma uncertain_strict : forall u, strict (uncertain u) <-> u <> None.
Proof.
  intros [u|]; split; intros H; try congruence.
  - eexists. split; [constructor|]. repeat constructor.
  - destruct H as (j & R & S). inversion R; subst. inversion S as [| | | | |l F]; subst.
    inversion F as [|? ? _ F']; subst. inversion F' as [|? ? X _]; subst. cbn in X. inversion X.
Qed.
Lemma float_strict : forall x, strict (OFloat (float_or_nan x)) <-> x <> None.
Proof.
  intros [x|]; split; intros H; try congruence.
  - eexists. split; [constructor|]. constructor.
  - destruct H as (j & R & S). inversion R; subst. inversion S.
Qed.

Lemma measures_strict : forall ex, strict (ODict (dict_of o ex)) <-> all_numbers m.
Proof.
  intros ex. split.
  - intros S. repeat split.
    + intros y name f Y I.
      assert (In name (report_names ex)) as N.
      { unfold report_names. rewrite !in_app_iff. left. change name with (fst (name, f)). apply in_map, I. }
      assert (attr o (str name) = of_y m f) as A.
      { unfold y_measures in I. cbn [In] in I. repeat (destruct I as [I|I]; [injection I as <- <-; reflexivity|]). destruct I. }
      pose proof (attr_strict _ _ _ S N A) as X. unfold of_y in X. rewrite Y in X. apply uncertain_strict, X.
    + intros t name f T I.
      assert (In name (report_names ex)) as N.
      { unfold report_names. rewrite !in_app_iff. right; left. change name with (fst (name, f)). apply in_map, I. }
      assert (attr o (str name) = of_t m f) as A.
      { unfold t_measures in I. cbn [In] in I. repeat (destruct I as [I|I]; [injection I as <- <-; reflexivity|]). destruct I. }
      pose proof (attr_strict _ _ _ S N A) as X. unfold of_t in X. rewrite T in X. apply uncertain_strict, X.
    + intros t name f T I.
      assert (In name (report_names ex)) as N.
      { unfold report_names. rewrite !in_app_iff. right; right; left. change name with (fst (name, f)). apply in_map, I. }
      assert (attr o (str name) = of_t_float m f) as A.
      { unfold jitters in I. cbn [In] in I. repeat (destruct I as [I|I]; [injection I as <- <-; reflexivity|]). destruct I. }
      pose proof (attr_strict _ _ _ S N A) as X. unfold of_t_float in X. rewrite T in X. apply float_strict, X.
    + pose proof (attr_strict ex "mask_margin" (match in_t m with None => ONone | Some _ => OFloat (float_or_nan (mask_margin m)) end) S
        ltac:(unfold report_names; cbn; tauto) eq_refl) as X. destruct (in_t m); [|congruence]. apply float_strict, X.
    + pose proof (attr_strict ex "n_sym_bad" (match in_t m with None => ONone
        | Some _ => match n_sym_bad m with Some n => OInt (Z.of_nat n) | None => OFloat PNan end end) S
        ltac:(unfold report_names; cbn; tauto) eq_refl) as X. destruct (in_t m); [|congruence].
      destruct (n_sym_bad m); [discriminate|]. apply (float_strict None) in X. congruence.
  - intros (Y & T & J & M). apply dict_strict, dict_all.
    assert (Hy : forall name f, In (name, f) y_measures -> strict (of_y m f)).
    { intros name f I. unfold of_y. destruct (in_y m) eqn:E; [apply uncertain_strict; eauto|eexists; split; constructor]. }
    assert (Ht : forall name f, In (name, f) t_measures -> strict (of_t m f)).
    { intros name f I. unfold of_t. destruct (in_t m) eqn:E; [apply uncertain_strict; eauto|eexists; split; constructor]. }
    assert (Hj : forall name f, In (name, f) jitters -> strict (of_t_float m f)).
    { intros name f I. unfold of_t_float. destruct (in_t m) eqn:E; [apply float_strict; eauto|eexists; split; constructor]. }
    assert (Hi : forall f, strict (image_property png64 size (option_map f im))).
    { intros f. unfold image_property. destruct im; cbn; [|eexists; split; constructor]. eexists. split; [constructor; apply ascii|constructor]. }
    assert (Hb : strict (bathtub_obj (bathtub_curve m))) by (eexists; split; [apply bathtub_rep|apply bathtub_std]).
    assert (Hd : strict (transition_obj (transition_dist m))) by (eexists; split; [apply transition_rep|repeat constructor]).
    assert (Hm : strict (match in_t m with None => ONone | Some _ => OFloat (float_or_nan (mask_margin m)) end)).
    { destruct (in_t m); [|eexists; split; constructor]. apply float_strict. apply M. discriminate. }
    assert (Hn : strict (match in_t m with None => ONone
        | Some _ => match n_sym_bad m with Some n => OInt (Z.of_nat n) | None => OFloat PNan end end)).
    { destruct (in_t m); [|eexists; split; constructor]. destruct M as [_ M]; [discriminate|]. destruct (n_sym_bad m); [eexists; split; constructor|congruence]. }
    subst o. unfold measures_object. cbn [instance properties app].
    repeat (apply Forall_cons;
      [first [left; reflexivity
             | right; cbn [snd]; first [assumption | apply Hi
                 | match goal with |- strict (of_y m ?f) => eapply (Hy _ f); unfold y_measures; cbn [In] end; eauto 20
                 | match goal with |- strict (of_t m ?f) => eapply (Ht _ f); unfold t_measures; cbn [In] end; eauto 20
                 | match goal with |- strict (of_t_float m ?f) => eapply (Hj _ f); unfold jitters; cbn [In] end; eauto 20
                 | eexists; split; constructor]]|]).
    apply Forall_nil.
Qed.

(** * Saving *)
Lemma save_measures : forall filename ex allow fs,
  save_json o filename ex allow fs =
    match encode (depth (ODict (dict_of o ex))) allow (ODict (dict_of o ex)) with
    | Ok doc => (Ok tt, write fs filename (Document doc))
    | Err e => (Err e, write fs filename Truncated)
    end.
Proof. intros. unfold save_json. rewrite to_dict_list. reflexivity. Qed.
End Measures.

Lemma encode_error : forall allow fuel x e, encode fuel allow x = Err e -> e = OutOfFuel \/ e = TypeError \/ e = ValueError.
Proof.
  intros allow. induction fuel as [|fuel IH]; intros x e E; [cbn in E; injection E as <-; auto|].
  destruct x; cbn [encode] in E; try discriminate; try (injection E as <-; auto; fail); try (apply (IH _ _ E)).
  - destruct (finite x || allow); [discriminate|]. injection E as <-; auto.
  - cbn [default] in E. unfold decode in E. destruct (forallb _ b); cbn in E; [apply (IH _ _ E)|]. injection E as <-; auto.
  - destruct (mapM (encode fuel allow) l) eqn:M; cbn in E; [discriminate|]. injection E as ->.
    destruct (mapM_Err _ _ _ M) as (x & X & F). apply (IH _ _ F).
  - destruct (mapM _ l) eqn:M; cbn in E; [discriminate|]. injection E as ->.
    destruct (mapM_Err _ _ _ M) as ([k x] & X & F). cbn in F. destruct (encode fuel allow x) eqn:G; cbn in F; [discriminate|].
    injection F as ->. apply (IH _ _ G).
Qed.
(** Something without a default can only be met where it is not encodable. *)
Lemma encode_type : forall allow fuel x, encode fuel allow x = Err TypeError -> ~ encodable x.
Proof.
  intros allow. induction fuel as [|fuel IH]; intros x E; [discriminate|].
  destruct x; cbn [encode] in E; try discriminate.
  - destruct (finite x || allow); discriminate.
  - cbn [default] in E. unfold decode in E. destruct (forallb _ b); cbn in E; [|discriminate].
    exfalso. apply (IH _ E). eexists; constructor.
  - destruct (mapM (encode fuel allow) l) eqn:M; cbn in E; [discriminate|]. injection E as ->.
    destruct (mapM_Err _ _ _ M) as (x & X & F). intros (j & R). apply (IH _ F). inversion R; subst.
    clear - X H0. induction H0 as [|a b l l' Ra _ IH]; [destruct X|]. destruct X as [->|X]; [exists b; assumption|auto].
  - destruct (mapM _ l) eqn:M; cbn in E; [discriminate|]. injection E as ->.
    destruct (mapM_Err _ _ _ M) as ([k x] & X & F). cbn in F. destruct (encode fuel allow x) eqn:G; cbn in F; [discriminate|].
    injection F as ->. intros N. apply (IH _ G). apply dict_encodable in N. rewrite Forall_forall in N. apply (N _ X).
  - exfalso. apply (IH _ E). eexists; repeat constructor.
  - exfalso. apply (IH _ E). eexists; constructor.
  - exfalso. apply (IH _ E). eexists; constructor.
  - intros (j & R). inversion R; subst. apply (IH _ E). exists j. apply listed_represents; assumption.
  - intros (j & R). inversion R.
Qed.

(** * Stacks of images *)
Lemma layer_shows : forall junk below above layers, shows below layers -> length above = 4%nat ->
  opacities below -> opacities above ->
  shows (ImageModel.layer_pixel junk below above) (layers ++ [above]) /\ opacities (ImageModel.layer_pixel junk below above).
Proof.
  intros junk below above layers [LB SB] LA OB OA.
  destruct below as [|b0 [|b1 [|b2 [|ba [|]]]]]; try discriminate. destruct above as [|a0 [|a1 [|a2 [|aa [|]]]]]; try discriminate.
  unfold opacities, alpha in OB, OA. cbn in OB, OA.
  unfold ImageModel.layer_pixel. cbn -[Rplus Rminus Rmult Rdiv IZR ImageModel.blend nth].
  set (out := (aa + ba * (1 - aa))%R).
  assert (OUT : (0 <= out <= 1)%R).
  { subst out. assert (0 <= ba * (1 - aa))%R by (apply Rmult_le_pos; lra).
    assert (ba * (1 - aa) <= 1 * (1 - aa))%R by (apply Rmult_le_compat_r; lra). lra. }
  split.
  - split; [reflexivity|]. intros k K. unfold composite. rewrite fold_left_app. cbn [fold_left].
    unfold composite in SB. rewrite <- (SB k K). unfold over, layer_of, alpha.
    assert (B : forall j ca cb, (ImageModel.blend j ca aa cb ba out * out = ca * aa + cb * ba * (1 - aa))%R).
    { intros j ca cb. unfold ImageModel.blend. cbn.
      destruct (Req_EM_T out 0) as [Z|Z].
      - assert (aa = 0)%R. { subst out. assert (0 <= ba * (1 - aa))%R by (apply Rmult_le_pos; lra). lra. }
        subst aa. assert (ba = 0)%R by (subst out; lra). subst ba. rewrite Z.
        match goal with |- ((if ?c then _ else _) * _ = _)%R => destruct c end; lra.
      - match goal with |- ((if ?c then _ else _) * _ = _)%R => destruct c eqn:C end.
        + exfalso. apply Z. revert C. unfold Num.Reqb. destruct (Req_EM_T out 0); [tauto|discriminate].
        + field. exact Z. }
    destruct k as [|[|[|k]]]; [| | |lia]; cbn [nth fst snd]; f_equal; cbn -[Rplus Rminus Rmult IZR ImageModel.blend out]; rewrite (Rmult_comm out), B; lra.
  - unfold opacities, alpha. exact OUT.
Qed.

(** * Printing *)
Section Print.
Variable format_float : pystr -> pfloat -> pystr.
Variable str_float : pfloat -> pystr.
Variable shape_text dtype_text : ndarray -> pystr.

Lemma print_value_Ok : forall x, exists t, print_value format_float str_float x = Ok t.
Proof. intros x; destruct x; eexists; reflexivity. Qed.
Lemma print_entry_Ok : forall w kv, exists t, print_entry format_float str_float shape_text dtype_text w kv = Ok (t ++ [10%Z]).
Proof.
  assert (G : forall e (a b : pystr), (exists t, e = Ok t) -> exists t, (text <- e ;; Ok (str "  " ++ a ++ str ": " ++ text ++ newline)) = Ok (t ++ [10%Z])).
  { intros e a b [t ->]. exists (str "  " ++ a ++ str ": " ++ t). cbn [bind]. f_equal. unfold newline. rewrite <- !app_assoc. reflexivity. }
  intros w [k x]. unfold print_entry. apply G; [exact []|]. cbn [snd]. destruct x; eexists; reflexivity.
Qed.
(** What follows the name, with the final end of line. *)
Definition rest (o : pyobject) (key : pystr) : result pystr :=
  if startswith (str "image") key then Ok (str "[Image]" ++ newline)
  else
    item <- getattr o key ;;
    match item with
    | ODict [] => Err ValueError
    | ODict l =>
        lines <- mapM (print_entry format_float str_float shape_text dtype_text (longest (map fst l))) l ;;
        Ok (newline ++ concat lines)
    | _ => text <- print_value format_float str_float item ;; Ok (text ++ newline)
    end.
Definition public (o : pyobject) : list pystr :=
  filter (fun key => negb (startswith (str "_") key) && negb (is_method o key)) (dir o).
Lemma pretty_print_lines : forall o,
  pretty_print format_float str_float shape_text dtype_text o =
    (ts <- mapM (fun key => t <- rest o key ;; Ok (rpad (longest (public o)) key ++ str ": " ++ t)) (public o) ;; Ok (concat ts)).
Proof.
  intros o. unfold pretty_print. fold (public o). generalize (longest (public o)) as w. intros w.
  match goal with |- foldM ?f _ _ = bind (mapM ?g _) _ =>
    enough (G : forall l out, foldM f out l = (ts <- mapM g l ;; Ok (out ++ concat ts))) by (rewrite G; reflexivity) end.
  induction l as [|k l IH]; intros out; cbn [foldM mapM].
  - cbn. rewrite app_nil_r. reflexivity.
  - match goal with |- match ?a with _ => _ end = _ =>
      assert (E : a = (t <- rest o k ;; Ok (out ++ rpad w k ++ str ": " ++ t))) end.
    { unfold rest. destruct (startswith (str "image") k); [cbn [bind]; rewrite <- !app_assoc; reflexivity|].
      destruct (getattr o k) as [x|]; [|reflexivity]. cbn [bind].
      destruct x; cbn [bind print_value]; try (rewrite <- !app_assoc; reflexivity).
      - destruct l0; [reflexivity|]. destruct (mapM _ (p :: l0)); [cbn [bind]; rewrite <- !app_assoc; reflexivity|reflexivity].
      - destruct (format_uncertain _ _ _ _ _); [cbn [bind]; rewrite <- !app_assoc; reflexivity|reflexivity]. }
    rewrite E. destruct (rest o k); cbn [bind]; [|reflexivity]. rewrite IH.
    destruct (mapM _ l); cbn [bind]; [|reflexivity]. cbn [concat]. rewrite <- !app_assoc. reflexivity.
Qed.

Lemma lines_end : forall {X} (f : X -> result pystr) l ts, (forall x, exists t, f x = Ok (t ++ [10%Z])) -> mapM f l = Ok ts ->
  exists t, newline ++ concat ts = t ++ [10%Z].
Proof.
  intros X f l ts F M. apply mapM_Forall2 in M.
  enough (concat ts = [] \/ exists t, concat ts = t ++ [10%Z]) as [E|[t E]].
  { exists []. rewrite E. reflexivity. } { exists (newline ++ t). rewrite E. apply app_assoc. }
  induction M as [|x y l ts E _ IH]; cbn; [left; reflexivity|]. right.
  destruct (F x) as [t Ft]. assert (y = t ++ [10%Z]) by congruence. subst y. destruct IH as [-> | [t' ->]].
  - exists t. rewrite app_nil_r. reflexivity.
  - exists ((t ++ [10%Z]) ++ t'). rewrite app_assoc. reflexivity.
Qed.
Lemma rest_Ok : forall o k, In k (public o) -> attr o k <> ODict [] -> exists t, rest o k = Ok (t ++ [10%Z]).
Proof.
  intros o k I N. apply filter_In in I. destruct I as [I S]. apply andb_true_iff in S. destruct S as [_ M]. apply negb_true_iff in M.
  unfold rest. destruct (startswith (str "image") k); [eexists; reflexivity|].
  rewrite (getattr_Ok o k I M). cbn [bind]. destruct (attr o k); try (eexists; reflexivity).
  destruct l as [|kv l]; [congruence|].
  destruct (mapM _ (kv :: l)) as [ts|e] eqn:E.
  - cbn [bind]. destruct (lines_end _ _ _ (print_entry_Ok _) E) as [t ->]. exists t. reflexivity.
  - exfalso. apply mapM_Err in E. destruct E as (x & _ & E). destruct (print_entry_Ok (longest (map fst (kv :: l))) x) as [t Et]. congruence.
Qed.
Definition value_text (o : pyobject) (k : pystr) : pystr := match rest o k with Ok t => removelast t | Err _ => [] end.
Lemma pretty_print_Ok : forall o, (forall k, In k (public o) -> attr o k <> ODict []) ->
  pretty_print format_float str_float shape_text dtype_text o =
    Ok (concat (map (fun k => report_line (longest (public o)) k (value_text o k)) (public o))).
Proof.
  intros o N. rewrite pretty_print_lines. generalize (longest (public o)) as w. intros w.
  match goal with |- bind (mapM ?g _) _ = _ =>
    assert (M : mapM g (public o) = Ok (map (fun k => report_line w k (value_text o k)) (public o))); [|rewrite M; reflexivity] end.
  apply Forall2_mapM. assert (F : Forall (fun k => exists t, rest o k = Ok (t ++ [10%Z])) (public o)).
  { apply Forall_forall. intros k K. apply rest_Ok; auto. }
  clear N. induction F as [|k l [t E] _ IH]; cbn [map]; [constructor|]. constructor; [|assumption].
  unfold value_text. rewrite E. cbn [bind]. rewrite removelast_last. unfold report_line, rpad. rewrite <- !app_assoc. reflexivity.
Qed.

Section PrintMeasures.
Variable png64 : Z -> bitmap -> list Z.
Variable size : Z.
Variable m : measures.
Variable im : option images.
Hypothesis curve : bathtub_curve m <> Some [].
Let o := measures_object png64 size m im.

Lemma public_names : forall k, In k (public o) <-> exists s, In s (report_names false) /\ k = str s.
Proof.
  intros k. transitivity (In k (map str (report_names false))).
  - split; apply forallb_incl; subst o; unfold measures_object; destruct im; vm_compute; reflexivity.
  - rewrite in_map_iff. split; intros (s & A & B); exists s; auto.
Qed.
Lemma public_width : longest (public o) = 16%nat.
Proof. subst o. unfold measures_object. destruct im; vm_compute; reflexivity. Qed.
Lemma public_nonempty : forall k, In k (public o) -> attr o k <> ODict [].
Proof.
  intros k I. apply public_names in I. destruct I as (s & I & ->).
  unfold report_names in I. rewrite !in_app_iff in I. destruct I as [I|[I|[I|[I|I]]]]; cbn in I.
  - repeat (destruct I as [<-|I]; [cbn; unfold of_y; destruct (in_y m); [|discriminate]; match goal with |- uncertain ?u <> _ => destruct u; discriminate end|]). destruct I.
  - repeat (destruct I as [<-|I]; [cbn; unfold of_t; destruct (in_t m); [|discriminate]; match goal with |- uncertain ?u <> _ => destruct u; discriminate end|]). destruct I.
  - repeat (destruct I as [<-|I]; [cbn; unfold of_t_float; destruct (in_t m); discriminate|]). destruct I.
  - destruct I as [<-|I]; [discriminate|]. destruct I as [<-|I]; [discriminate|].
    destruct I as [<-|I]; [cbn; destruct (in_t m); [destruct (n_sym_bad m)|]; discriminate|].
    destruct I as [<-|I]; [cbn; destruct (in_t m); discriminate|].
    destruct I as [<-|I]; [discriminate|].
    destruct I as [<-|[]]. cbn. destruct (bathtub_curve m) as [[|[ts bers] l]|]; [congruence|discriminate|discriminate].
  - repeat (destruct I as [<-|I]; [cbn; unfold image_property; destruct im; discriminate|]). destruct I.
Qed.

Definition values : list (pystr * pystr) := map (fun k => (k, value_text o k)) (public o).
Lemma values_In : forall s t, In s (report_names false) -> startswith (str "image") (str s) = false ->
  attr o (str s) <> ODict [] -> (forall l, attr o (str s) <> ODict l) ->
  print_value format_float str_float (attr o (str s)) = Ok t -> In (str s, t) values.
Proof.
  intros s t I NI _ ND P. unfold values. apply in_map_iff. exists (str s).
  assert (K : In (str s) (public o)) by (apply public_names; exists s; auto). split; [|exact K]. f_equal.
  unfold value_text, rest. rewrite NI. apply filter_In in K. destruct K as [D S]. apply andb_true_iff in S. destruct S as [_ M]. apply negb_true_iff in M.
  rewrite (getattr_Ok o _ D M). cbn [bind].
  destruct (attr o (str s)); try (rewrite P; cbn [bind]; unfold newline; apply removelast_last). exfalso; eapply ND; reflexivity.
Qed.
Lemma integer_pad : forall n, lpad 10 32 (str_int n) = integer_text n.
Proof. reflexivity. Qed.
Lemma print_uncertain : forall u, print_value format_float str_float (uncertain u) = Ok (uncertain_text format_float u).
Proof. intros [u|]; reflexivity. Qed.

Lemma measures_printed : printed format_float m values.
Proof.
  assert (VF : map fst values = public o) by (unfold values; rewrite map_map; apply map_id).
  split.
  - rewrite VF. apply sorted_filter, dir_sorted.
  - intros name. rewrite VF. apply public_names.
  - intros name f I.
    assert (In name (report_names false)) as N.
    { unfold report_names. rewrite !in_app_iff. left. change name with (fst (name, f)). apply in_map, I. }
    assert (attr o (str name) = of_y m f) as A.
    { unfold y_measures in I. cbn [In] in I. repeat (destruct I as [I|I]; [injection I as <- <-; reflexivity|]). destruct I. }
    assert (startswith (str "image") (str name) = false) as NI.
    { unfold y_measures in I. cbn [In] in I. repeat (destruct I as [I|I]; [injection I as <- <-; reflexivity|]). destruct I. }
    apply values_In; [exact N|exact NI| | |]; rewrite A; unfold of_y; destruct (in_y m); try (destruct (f m0)); try discriminate; try reflexivity.
  - intros name f I.
    assert (In name (report_names false)) as N.
    { unfold report_names. rewrite !in_app_iff. right; left. change name with (fst (name, f)). apply in_map, I. }
    assert (attr o (str name) = of_t m f) as A.
    { unfold t_measures in I. cbn [In] in I. repeat (destruct I as [I|I]; [injection I as <- <-; reflexivity|]). destruct I. }
    assert (startswith (str "image") (str name) = false) as NI.
    { unfold t_measures in I. cbn [In] in I. repeat (destruct I as [I|I]; [injection I as <- <-; reflexivity|]). destruct I. }
    apply values_In; [exact N|exact NI| | |]; rewrite A; unfold of_t; destruct (in_t m); try (destruct (f m0)); try discriminate; try reflexivity.
  - intros name f I.
    assert (In name (report_names false)) as N.
    { unfold report_names. rewrite !in_app_iff. right; right; left. change name with (fst (name, f)). apply in_map, I. }
    assert (attr o (str name) = of_t_float m f) as A.
    { unfold jitters in I. cbn [In] in I. repeat (destruct I as [I|I]; [injection I as <- <-; reflexivity|]). destruct I. }
    assert (startswith (str "image") (str name) = false) as NI.
    { unfold jitters in I. cbn [In] in I. repeat (destruct I as [I|I]; [injection I as <- <-; reflexivity|]). destruct I. }
    apply values_In; [exact N|exact NI| | |]; rewrite A; unfold of_t_float; destruct (in_t m); try discriminate; try reflexivity.
  - apply (values_In "n_samples"); try reflexivity; try discriminate. unfold report_names; cbn; tauto.
  - apply (values_In "n_sym"); try reflexivity; try discriminate. unfold report_names; cbn; tauto.
  - apply (values_In "n_sym_bad"); [unfold report_names; cbn; tauto|reflexivity| | |];
      change (attr o (str "n_sym_bad")) with
      (match in_t m with None => ONone | Some _ => match n_sym_bad m with Some n => OInt (Z.of_nat n) | None => OFloat PNan end end);
      destruct (in_t m); try (destruct (n_sym_bad m)); try discriminate; reflexivity.
  - apply (values_In "mask_margin"); [unfold report_names; cbn; tauto|reflexivity| | |];
      change (attr o (str "mask_margin")) with
      (match in_t m with None => ONone | Some _ => OFloat (float_or_nan (mask_margin m)) end);
      destruct (in_t m); try discriminate; reflexivity.
  - assert (K : In (str "transition_dist") (public o)) by (apply public_names; exists "transition_dist"; split; [unfold report_names; cbn; tauto|reflexivity]).
    exists (value_text o (str "transition_dist")). split; [unfold values; apply in_map_iff; eexists; split; [reflexivity|exact K]|].
    destruct (rest_Ok o _ K (public_nonempty _ K)) as [t E]. unfold value_text. rewrite E, removelast_last.
    enough (rest o (str "transition_dist") = Ok ([10%Z] ++ concat (map (fun q => str "  " ++ str q ++ str ": " ++ integer_text
        (transition_dist m (match q with
                            | "000" => (false, false, false) | "001" => (false, false, true)
                            | "010" => (false, true, false) | "011" => (false, true, true)
                            | "100" => (true, false, false) | "101" => (true, false, true)
                            | "110" => (true, true, false) | _ => (true, true, true)
                            end)) ++ [10%Z])
      ["000"; "001"; "010"; "011"; "100"; "101"; "110"; "111"]))) as G by congruence.
    unfold rest. replace (getattr o (str "transition_dist")) with (Ok (transition_obj (transition_dist m))) by reflexivity.
    reflexivity.
  - intros name f I.
    assert (In name (report_names false)) as N.
    { unfold report_names. rewrite !in_app_iff. right; right; right; right. change name with (fst (name, f)). apply in_map, I. }
    unfold values. apply in_map_iff. exists (str name). split; [|apply public_names; exists name; auto].
    f_equal. unfold image_names in I. cbn [In] in I. repeat (destruct I as [I|I]; [injection I as <- <-; reflexivity|]). destruct I.
Qed.
End PrintMeasures.
End Print.
