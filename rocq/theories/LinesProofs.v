From Coq Require Import List ZArith Bool Lia Sorted.
Import ListNotations.
From Verif Require Import Base Num LinesModel LinesSpec.
Local Open Scope num_scope.
Local Open Scope result_scope.

Lemma get_ok {X} (l : list X) i a : nth_error l i = Some a -> get l i = Ok a.
Proof. unfold get; intros ->; reflexivity. Qed.

Lemma get_inv {X} (l : list X) i a : get l i = Ok a -> nth_error l i = Some a.
Proof. unfold get; destruct (nth_error l i); congruence. Qed.

Lemma getz_nat {X} (l : list X) (i : nat) : getz l (Z.of_nat i) = get l i.
Proof.
  unfold getz. destruct (Z.leb_spec 0 (Z.of_nat i)); [|lia].
  rewrite Nat2Z.id. reflexivity.
Qed.

Lemma sample_ex {X} (l : list X) i : (i < length l)%nat -> exists a, sample l i a.
Proof.
  intros Hi. unfold sample. destruct (nth_error l i) as [a|] eqn:E; [eauto|].
  apply nth_error_None in E. lia.
Qed.

Lemma sample_lt {X} (l : list X) i a : sample l i a -> (i < length l)%nat.
Proof. intros Ha. apply nth_error_Some. unfold sample in Ha. congruence. Qed.

Lemma sample_fun {X} (l : list X) i a b : sample l i a -> sample l i b -> a = b.
Proof. unfold sample; congruence. Qed.

Lemma foldM_app {S X} (f : S -> X -> result S) l1 l2 s :
  foldM f s (l1 ++ l2) = (s' <- foldM f s l1 ;; foldM f s' l2).
Proof.
  revert s; induction l1 as [|x l1 IH]; intros s; cbn [app foldM bind]; [reflexivity|].
  destruct (f s x); [apply IH|reflexivity].
Qed.

Lemma range_snoc m : (1 <= m)%nat -> range 1 (S m) = range 1 m ++ [m].
Proof.
  intros Hm. unfold range. replace (S m - 1)%nat with (S (m - 1)) by lia.
  rewrite seq_S. f_equal. f_equal. lia.
Qed.

Section Generic.
Context {A : Type} `{Num A}.

Lemma crosses_dec (s : list A) v k a b : (1 <= k)%nat ->
  sample s (k - 1) a -> sample s k b ->
  Bool.eqb (b >. v) (a >. v) = false <-> crosses s v k.
Proof.
  intros Hk Ha Hb. rewrite eqb_false_iff. split.
  - intros Hne. split; [exact Hk|]. exists a, b. repeat split; try assumption. congruence.
  - intros (_ & a' & b' & Ha' & Hb' & Hne).
    rewrite (sample_fun _ _ _ _ Ha Ha'), (sample_fun _ _ _ _ Hb Hb'). congruence.
Qed.

Lemma not_crosses (s : list A) v k a b : (1 <= k)%nat ->
  sample s (k - 1) a -> sample s k b ->
  Bool.eqb (b >. v) (a >. v) = true -> ~ crosses s v k.
Proof.
  intros Hk Ha Hb He Hc. apply (crosses_dec s v k a b Hk Ha Hb) in Hc. congruence.
Qed.

Lemma loop_bwd (s : list A) v : forall k fuel, (k < length s)%nat -> (k < fuel)%nat ->
  exists j, crossing_loop fuel s (Z.of_nat k) (Z.of_nat (length s)) v false = Ok (Z.of_nat j) /\
    (j <= k)%nat /\ (forall m, (j < m <= k)%nat -> ~ crosses s v m) /\
    (j = O \/ crosses s v j).
Proof.
  induction k as [|k IH]; intros fuel Hk Hf; (destruct fuel as [|fuel]; [lia|]); cbn [crossing_loop].
  - exists O. split; [reflexivity|]. split; [lia|]. split; [intros; lia|left; reflexivity].
  - destruct (Z.ltb_spec 0 (Z.of_nat (S k))); [|lia].
    destruct (Z.ltb_spec (Z.of_nat (S k)) (Z.of_nat (length s))); [|lia]. cbn [andb].
    replace (Z.of_nat (S k) - 1)%Z with (Z.of_nat k) by lia.
    rewrite !getz_nat.
    destruct (sample_ex s (S k) Hk) as [b Hb]. destruct (sample_ex s k ltac:(lia)) as [a Ha].
    rewrite (get_ok _ _ _ Hb), (get_ok _ _ _ Ha). cbn [bind].
    destruct (Bool.eqb (b >. v) (a >. v)) eqn:E.
    + destruct (IH fuel ltac:(lia) ltac:(lia)) as (j & Hl & Hj & Hn & Hc).
      exists j. split; [exact Hl|]. split; [lia|]. split; [|exact Hc].
      intros m Hm. destruct (Nat.eq_dec m (S k)) as [->|Hne]; [|apply Hn; lia].
      apply (not_crosses s v (S k) a b); try lia; try assumption.
      replace (S k - 1)%nat with k by lia. assumption.
    + exists (S k). split; [reflexivity|]. split; [lia|]. split; [intros; lia|].
      right. apply (crosses_dec s v (S k) a b); try lia; try assumption.
      replace (S k - 1)%nat with k by lia. assumption.
Qed.

Lemma loop_fwd (s : list A) v : forall d k fuel, (k + d = length s)%nat -> (1 <= k)%nat ->
  (d < fuel)%nat ->
  exists j, crossing_loop fuel s (Z.of_nat k) (Z.of_nat (length s)) v true = Ok (Z.of_nat j) /\
    (k <= j <= length s)%nat /\ (forall m, (k <= m < j)%nat -> ~ crosses s v m) /\
    (j = length s \/ crosses s v j).
Proof.
  induction d as [|d IH]; intros k fuel Hk Hk1 Hf; (destruct fuel as [|fuel]; [lia|]);
    cbn [crossing_loop].
  - exists k. destruct (Z.ltb_spec (Z.of_nat k) (Z.of_nat (length s))); [lia|].
    rewrite andb_false_r. split; [reflexivity|]. split; [lia|]. split; [intros; lia|left; lia].
  - destruct (Z.ltb_spec 0 (Z.of_nat k)); [|lia].
    destruct (Z.ltb_spec (Z.of_nat k) (Z.of_nat (length s))); [|lia]. cbn [andb].
    replace (Z.of_nat k - 1)%Z with (Z.of_nat (k - 1)) by lia.
    rewrite !getz_nat.
    destruct (sample_ex s k ltac:(lia)) as [b Hb].
    destruct (sample_ex s (k - 1) ltac:(lia)) as [a Ha].
    rewrite (get_ok _ _ _ Hb), (get_ok _ _ _ Ha). cbn [bind].
    destruct (Bool.eqb (b >. v) (a >. v)) eqn:E.
    + replace (Z.of_nat k + 1)%Z with (Z.of_nat (S k)) by lia.
      destruct (IH (S k) fuel ltac:(lia) ltac:(lia) ltac:(lia)) as (j & Hl & Hj & Hn & Hc).
      exists j. split; [exact Hl|]. split; [lia|]. split; [|exact Hc].
      intros m Hm. destruct (Nat.eq_dec m k) as [->|Hne]; [|apply Hn; lia].
      apply (not_crosses s v k a b); try lia; assumption.
    + exists k. split; [reflexivity|]. split; [lia|]. split; [intros; lia|].
      right. apply (crosses_dec s v k a b); try lia; assumption.
Qed.

(** The value interpolated at the crossing index [j]. *)
Definition interp_at (ret s : list A) (v : A) (j : nat) : result (option A * Z) :=
  x1 <- get ret (j - 1) ;;
  x2 <- get ret j ;;
  y1 <- get s (j - 1) ;;
  y2 <- get s j ;;
  q <- py_div (x2 -. x1) (y2 -. y1) ;;
  Ok (Some (q *. (v -. y1) +. x1), Z.of_nat j).

Lemma crossing_outside ret s i v fwd : (i < 1 \/ Z.of_nat (length s) <= i)%Z ->
  @crossing A _ ret s i v fwd 0 = Ok (None, i).
Proof.
  intros Hi. unfold crossing. cbn [Z.eqb].
  cbn [crossing_loop].
  destruct (Z.ltb_spec 0 i), (Z.ltb_spec i (Z.of_nat (length s))); cbn [andb bind]; try lia;
  destruct (Z.ltb_spec i 1), (Z.leb_spec (Z.of_nat (length s)) i); cbn [orb]; try lia; reflexivity.
Qed.

Lemma crossing_back ret s (k : nat) v : (1 <= k < length s)%nat ->
  (exists j, (1 <= j <= k)%nat /\ crosses s v j /\ (forall m, (j < m <= k)%nat -> ~ crosses s v m) /\
     @crossing A _ ret s (Z.of_nat k) v false 0 = interp_at ret s v j) \/
  ((forall m, (1 <= m <= k)%nat -> ~ crosses s v m) /\
     @crossing A _ ret s (Z.of_nat k) v false 0 = Ok (None, 0%Z)).
Proof.
  intros Hk.
  destruct (loop_bwd s v k (S (Z.to_nat (Z.of_nat (length s)))) ltac:(lia) ltac:(lia))
    as (j & Hl & Hj & Hn & Hc).
  unfold crossing. cbn [Z.eqb]. rewrite Hl. cbn [bind].
  destruct j as [|j].
  - right. split; [intros m Hm; apply Hn; lia|]. reflexivity.
  - destruct Hc as [Hc|Hc]; [lia|]. left. exists (S j). split; [lia|]. split; [exact Hc|].
    split; [exact Hn|].
    destruct (Z.ltb_spec (Z.of_nat (S j)) 1); [lia|].
    destruct (Z.leb_spec (Z.of_nat (length s)) (Z.of_nat (S j))); [lia|]. cbn [orb].
    replace (Z.of_nat (S j) - 1)%Z with (Z.of_nat (S j - 1)) by lia.
    rewrite !getz_nat. reflexivity.
Qed.

Lemma crossing_forward ret s (k : nat) v : (1 <= k < length s)%nat ->
  (exists j, (k <= j < length s)%nat /\ crosses s v j /\ (forall m, (k <= m < j)%nat -> ~ crosses s v m) /\
     @crossing A _ ret s (Z.of_nat k) v true 0 = interp_at ret s v j) \/
  ((forall m, (k <= m < length s)%nat -> ~ crosses s v m) /\
     @crossing A _ ret s (Z.of_nat k) v true 0 = Ok (None, Z.of_nat (length s))).
Proof.
  intros Hk.
  destruct (loop_fwd s v (length s - k) k (S (Z.to_nat (Z.of_nat (length s)))) ltac:(lia)
              ltac:(lia) ltac:(lia)) as (j & Hl & Hj & Hn & Hc).
  unfold crossing. cbn [Z.eqb]. rewrite Hl. cbn [bind].
  destruct (Nat.eq_dec j (length s)) as [Hje|Hje].
  - right. subst j. split; [intros m Hm; apply Hn; lia|].
    destruct (Z.ltb_spec (Z.of_nat (length s)) 1); [lia|].
    destruct (Z.leb_spec (Z.of_nat (length s)) (Z.of_nat (length s))); [|lia]. reflexivity.
  - destruct Hc as [Hc|Hc]; [lia|]. left. exists j. split; [lia|]. split; [exact Hc|].
    split; [exact Hn|].
    destruct (Z.ltb_spec (Z.of_nat j) 1); [lia|].
    destruct (Z.leb_spec (Z.of_nat (length s)) (Z.of_nat j)); [lia|]. cbn [orb].
    replace (Z.of_nat j - 1)%Z with (Z.of_nat (j - 1)) by lia.
    rewrite !getz_nat. reflexivity.
Qed.

Lemma crossing_n ret s i v fwd : @crossing A _ ret s i v fwd (Z.of_nat (length s)) = crossing ret s i v fwd 0.
Proof.
  unfold crossing. destruct (Z.eqb_spec (Z.of_nat (length s)) 0) as [E|E]; cbn [Z.eqb]; reflexivity.
Qed.

(** *** edges: events *)
Notation event := (nat * bool * option A)%type.
Definition ev_idx (e : event) := fst (fst e).
Definition ev_rise (e : event) := snd (fst e).
Definition ev_val (e : event) : option A := snd e.

Fixpoint alt (d : bool) (l : list event) : Prop :=
  match l with
  | [] => True
  | e :: l' => ev_rise e = d /\ alt (negb d) l'
  end.

Definition ev_ok (t y : list A) (y_rise y_half y_fall : A) (e : event) : Prop :=
  (1 <= ev_idx e < length y)%nat /\
  (exists j, crossing t y (Z.of_nat (ev_idx e)) y_half false 0 = Ok (ev_val e, j)) /\
  exists a, sample y (ev_idx e) a /\
    (if ev_rise e then (a >. y_rise) = true else (a <. y_fall) = true).

Definition rises (l : list event) := map ev_val (filter ev_rise l).
Definition falls (l : list event) := map ev_val (filter (fun e => negb (ev_rise e)) l).

(** State after the direction sequence. *)
Fixpoint state_after (low : bool) (l : list event) : bool :=
  match l with [] => low | e :: l' => state_after (negb (ev_rise e)) l' end.

Lemma alt_snoc l : forall d v i, alt d l -> state_after d l = v ->
  forall x, alt d (l ++ [(i, v, x)]) /\ state_after d (l ++ [(i, v, x)]) = negb v.
Proof.
  induction l as [|e l IH]; intros d v i Ha Hs x; cbn in * .
  - subst v. repeat split.
  - destruct Ha as [Hd Ha]. rewrite Hd in * . destruct (IH (negb d) v i Ha Hs x) as [H1 H2].
    repeat split; assumption.
Qed.

Lemma sorted_snoc (l : list nat) m : StronglySorted lt l -> (forall i, In i l -> (i < m)%nat) ->
  StronglySorted lt (l ++ [m]).
Proof.
  induction 1 as [|a l Hl IH Hall]; intros Hm; cbn [app].
  - constructor; constructor.
  - constructor.
    + apply IH. intros i Hi. apply Hm. right; exact Hi.
    + apply Forall_app. split; [exact Hall|]. constructor; [|constructor]. apply Hm. left; reflexivity.
Qed.

Lemma rises_app l1 l2 : rises (l1 ++ l2) = rises l1 ++ rises l2.
Proof. unfold rises. rewrite filter_app, map_app. reflexivity. Qed.
Lemma falls_app l1 l2 : falls (l1 ++ l2) = falls l1 ++ falls l2.
Proof. unfold falls. rewrite filter_app, map_app. reflexivity. Qed.

Lemma edges_fold t y y_rise y_half y_fall low0 : forall m s, (1 <= m <= length y)%nat ->
  foldM (edges_step t y y_rise y_half y_fall 0) (low0, [], []) (range 1 m) = Ok s ->
  exists ev, alt low0 ev /\ StronglySorted lt (map ev_idx ev) /\
    Forall (ev_ok t y y_rise y_half y_fall) ev /\
    (forall e, In e ev -> (ev_idx e < m)%nat) /\
    s = (state_after low0 ev, rises ev, falls ev).
Proof.
  induction m as [|m IH]; intros s Hm Hf; [lia|].
  destruct (Nat.eq_dec m 0) as [->|Hm0].
  - unfold range in Hf. simpl in Hf. injection Hf as <-. exists [].
    split; [exact I|]. split; [constructor|]. split; [constructor|].
    split; [intros ? []|reflexivity].
  - rewrite range_snoc in Hf by lia. rewrite foldM_app in Hf.
    destruct (foldM _ _ (range 1 m)) as [s1|e] eqn:E1; cbn [bind] in Hf; [|discriminate].
    destruct (IH s1 ltac:(lia) eq_refl) as (ev & Halt & Hsort & Hok & Hlt & ->).
    clear E1. cbn [foldM] in Hf.
    destruct (edges_step _ _ _ _ _ _ _ _) as [s2|e] eqn:E2; [|discriminate].
    injection Hf as <-. unfold edges_step in E2.
    destruct (get y m) as [a|e] eqn:Ea; cbn [bind] in E2; [|discriminate].
    apply get_inv in Ea.
    assert (Hsame : s2 = (state_after low0 ev, rises ev, falls ev) ->
      exists ev0, alt low0 ev0 /\ StronglySorted lt (map ev_idx ev0) /\
        Forall (ev_ok t y y_rise y_half y_fall) ev0 /\
        (forall e, In e ev0 -> (ev_idx e < S m)%nat) /\
        s2 = (state_after low0 ev0, rises ev0, falls ev0)).
    { intros ->. exists ev. repeat split; try assumption. intros e He. specialize (Hlt e He). lia. }
    assert (Hnew : forall d x j, state_after low0 ev = d ->
      crossing t y (Z.of_nat m) y_half false 0 = Ok (x, j) ->
      (if d then (a >. y_rise) = true else (a <. y_fall) = true) ->
      s2 = (negb d, rises (ev ++ [(m, d, x)]), falls (ev ++ [(m, d, x)])) ->
      exists ev0, alt low0 ev0 /\ StronglySorted lt (map ev_idx ev0) /\
        Forall (ev_ok t y y_rise y_half y_fall) ev0 /\
        (forall e, In e ev0 -> (ev_idx e < S m)%nat) /\
        s2 = (state_after low0 ev0, rises ev0, falls ev0)).
    { intros d x j Hs Hcr Hthr ->. exists (ev ++ [(m, d, x)]).
      destruct (alt_snoc ev low0 d m Halt Hs x) as [Halt' Hs'].
      split; [exact Halt'|]. split; [|split; [|split]].
      - rewrite map_app. apply sorted_snoc; [exact Hsort|].
        intros i Hi. apply in_map_iff in Hi. destruct Hi as (e & <- & He). auto.
      - apply Forall_app. split; [exact Hok|]. constructor; [|constructor].
        split; [cbn; lia|]. split; [exists j; exact Hcr|]. exists a. split; assumption.
      - intros e He. apply in_app_iff in He. destruct He as [He|[<-|[]]]; [specialize (Hlt e He); lia|cbn; lia].
      - rewrite Hs'. reflexivity. }
    destruct (state_after low0 ev) eqn:Es.
    + destruct (a >. y_rise) eqn:Er.
      * destruct (crossing t y (Z.of_nat m) y_half false 0) as [[x j]|e] eqn:Ec; cbn [bind] in E2; [|discriminate].
        injection E2 as <-. apply (Hnew true x j); auto.
        rewrite rises_app, falls_app. cbn. rewrite app_nil_r. reflexivity.
      * injection E2 as <-. apply Hsame; reflexivity.
    + destruct (a <. y_fall) eqn:Er.
      * destruct (crossing t y (Z.of_nat m) y_half false 0) as [[x j]|e] eqn:Ec; cbn [bind] in E2; [|discriminate].
        injection E2 as <-. apply (Hnew false x j); auto.
        rewrite rises_app, falls_app. cbn. rewrite app_nil_r. reflexivity.
      * injection E2 as <-. apply Hsame; reflexivity.
Qed.

Lemma edges_events t y y_rise y_half y_fall r f y0 : sample y 0 y0 ->
  edges t y y_rise y_half y_fall = Ok (r, f) ->
  exists ev, alt (y0 <. y_fall) ev /\ StronglySorted lt (map ev_idx ev) /\
    Forall (ev_ok t y y_rise y_half y_fall) ev /\ r = rises ev /\ f = falls ev.
Proof.
  intros H0 He. unfold edges in He. rewrite (get_ok _ _ _ H0) in He. cbn [bind] in He.
  destruct (foldM _ _ _) as [s|e] eqn:Ef; cbn [bind] in He; [|discriminate].
  assert (Hl : (0 < length y)%nat) by (apply sample_lt in H0; exact H0).
  destruct (edges_fold t y y_rise y_half y_fall _ (length y) s ltac:(lia) Ef)
    as (ev & Halt & Hs & Hok & _ & ->).
  injection He as <- <-. exists ev. auto.
Qed.

(** *** interleaving *)
Lemma alt_interleave l : forall d, alt d l ->
  map ev_val l = if d then interleave (rises l) (falls l) else interleave (falls l) (rises l).
Proof.
  assert (Hstrong : forall n l, (length l <= n)%nat -> forall d, alt d l ->
    map ev_val l = if d then interleave (rises l) (falls l) else interleave (falls l) (rises l)).
  { clear l. induction n as [|n IH]; intros l Hl d Ha.
    - destruct l; [|simpl in Hl; lia]. destruct d; reflexivity.
    - destruct l as [|e1 [|e2 l]].
      + destruct d; reflexivity.
      + destruct Ha as [Hd _]. unfold rises, falls; cbn [filter map]. rewrite Hd.
        destruct d; reflexivity.
      + destruct Ha as (Hd1 & Hd2 & Ha). rewrite negb_involutive in Ha.
        specialize (IH l ltac:(simpl in Hl; lia) d Ha).
        unfold rises, falls in * ; cbn [filter map]. rewrite Hd1, Hd2.
        destruct d; cbn [negb filter map interleave]; rewrite IH; reflexivity. }
  intros d. apply (Hstrong (length l)); lia.
Qed.

Lemma alt_counts l : forall d, alt d l ->
  if d then (length (falls l) <= length (rises l) <= S (length (falls l)))%nat
       else (length (rises l) <= length (falls l) <= S (length (rises l)))%nat.
Proof.
  induction l as [|e l IH]; intros d Ha.
  - destruct d; simpl; lia.
  - destruct Ha as [Hd Ha]. specialize (IH _ Ha). unfold rises, falls in * ; cbn [filter].
    rewrite Hd in * . destruct d; cbn [negb map length] in * ; lia.
Qed.

(** *** the specification of states *)
Section States.
Variables (y : list A) (y_rise y_fall : A).
Hypothesis Hband : proper_band y y_rise y_fall.

Lemma low_dec_step m a : sample y (S m) a ->
  (low_at y y_rise y_fall (S m) <->
   (a <. y_fall) = true \/ (low_at y y_rise y_fall m /\ (a >. y_rise) = false)).
Proof.
  intros Ha. split.
  - intros (j & b & Hj & Hb & Hlt & Hn). destruct (Nat.eq_dec j (S m)) as [->|Hne].
    + left. rewrite (sample_fun _ _ _ _ Ha Hb). exact Hlt.
    + right. split.
      * exists j, b. repeat split; try assumption; [lia|]. intros k c Hk. apply Hn. lia.
      * apply (Hn (S m)); [lia|exact Ha].
  - intros [Hlt|[(j & b & Hj & Hb & Hlt & Hn) Hr]].
    + exists (S m), a. repeat split; try assumption; [lia|]. intros; lia.
    + exists j, b. repeat split; try assumption; [lia|].
      intros k c Hk Hc. destruct (Nat.eq_dec k (S m)) as [->|Hne].
      * rewrite <- (sample_fun _ _ _ _ Ha Hc). exact Hr.
      * apply (Hn k); [lia|exact Hc].
Qed.

Lemma low_0 a : sample y 0 a -> (low_at y y_rise y_fall 0 <-> (a <. y_fall) = true).
Proof.
  intros Ha. split.
  - intros (j & b & Hj & Hb & Hlt & _). assert (j = 0)%nat by lia. subst j.
    rewrite (sample_fun _ _ _ _ Ha Hb). exact Hlt.
  - intros Hlt. exists 0%nat, a. repeat split; try assumption; [lia|]. intros; lia.
Qed.

End States.

Definition half_value (t y : list A) (y_half : A) (i : nat) (e : option A) : Prop :=
  exists j, crossing t y (Z.of_nat i) y_half false 0 = Ok (e, j).

Lemma listed_extend {X} n P (val : nat -> X -> Prop) l x :
  listed_at n P val l -> P n -> val n x -> listed_at (S n) P val (l ++ [x]).
Proof.
  intros (idx & Hs & Hi & Hv) HP Hx. exists (idx ++ [n]). split; [|split].
  - apply sorted_snoc; [exact Hs|]. intros i Hin. apply Hi in Hin. lia.
  - intros i. rewrite in_app_iff, Hi. cbn. split.
    + intros [[H1 H2]|[<-|[]]]; split; try assumption; lia.
    + intros [H1 H2]. destruct (Nat.eq_dec i n) as [->|Hne]; [right; left; reflexivity|left; split; [lia|exact H2]].
  - apply Forall2_app; [exact Hv|]. constructor; [exact Hx|constructor].
Qed.

Lemma listed_skip {X} n P (val : nat -> X -> Prop) l :
  listed_at n P val l -> ~ P n -> listed_at (S n) P val l.
Proof.
  intros (idx & Hs & Hi & Hv) HP. exists idx. split; [exact Hs|]. split; [|exact Hv].
  intros i. rewrite Hi. split; intros [H1 H2]; split; try assumption; [lia|].
  destruct (Nat.eq_dec i n) as [->|Hne]; [contradiction|lia].
Qed.

Lemma edges_fold_spec t y y_rise y_half y_fall y0 : proper_band y y_rise y_fall -> sample y 0 y0 ->
  forall m s, (1 <= m <= length y)%nat ->
  foldM (edges_step t y y_rise y_half y_fall 0) (y0 <. y_fall, [], []) (range 1 m) = Ok s ->
  let '(low, r, f) := s in
  (low = true <-> low_at y y_rise y_fall (m - 1)) /\
  listed_at m (rising_at y y_rise y_fall) (half_value t y y_half) r /\
  listed_at m (falling_at y y_rise y_fall) (half_value t y y_half) f.
Proof.
  intros Hband H0. induction m as [|m IH]; intros s Hm Hf; [lia|].
  destruct (Nat.eq_dec m 0) as [->|Hm0].
  - unfold range in Hf. simpl in Hf. injection Hf as <-. split; [|split].
    + change (1 - 1)%nat with 0%nat. rewrite (low_0 y y_rise y_fall y0 H0). reflexivity.
    + exists []. split; [constructor|]. split; [|constructor]. intros i. split; [intros []|].
      intros [H1 (H2 & _)]. lia.
    + exists []. split; [constructor|]. split; [|constructor]. intros i. split; [intros []|].
      intros [H1 (H2 & _)]. lia.
  - rewrite range_snoc in Hf by lia. rewrite foldM_app in Hf.
    destruct (foldM _ _ (range 1 m)) as [s1|e] eqn:E1; cbn [bind] in Hf; [|discriminate].
    specialize (IH s1 ltac:(lia) eq_refl). clear E1.
    destruct s1 as [[low r] f]. destruct IH as (Hlow & Hr & Hfl).
    cbn [foldM] in Hf.
    destruct (edges_step _ _ _ _ _ _ _ _) as [s2|e] eqn:E2; [|discriminate].
    injection Hf as <-. unfold edges_step in E2.
    destruct (get y m) as [a|e] eqn:Ea; cbn [bind] in E2; [|discriminate].
    apply get_inv in Ea.
    destruct m as [|m']; [lia|]. clear Hm0.
    replace (S m' - 1)%nat with m' in * by lia. replace (S (S m') - 1)%nat with (S m') by lia.
    pose proof (low_dec_step y y_rise y_fall m' a Ea) as Hstep.
    assert (Hin : In a y) by (apply nth_error_In in Ea; exact Ea).
    destruct low.
    + assert (HL : low_at y y_rise y_fall m') by (apply Hlow; reflexivity).
      assert (HnF : ~ falling_at y y_rise y_fall (S m')).
      { intros (_ & Hc & _). apply Hc. replace (S m' - 1)%nat with m' by lia. exact HL. }
      destruct (a >. y_rise) eqn:Er.
      * destruct (crossing _ _ _ _ _ _) as [[x j]|e] eqn:Ec; cbn [bind] in E2; [|discriminate].
        injection E2 as <-. split; [|split].
        -- split; [discriminate|]. intros Hc. apply Hstep in Hc. destruct Hc as [Hc|[_ Hc]]; [|congruence].
           exfalso. exact (Hband a Hin Hc Er).
        -- apply listed_extend; [exact Hr| |exists j; exact Ec].
           split; [lia|]. split; [replace (S m' - 1)%nat with m' by lia; exact HL|]. exists a; auto.
        -- apply listed_skip; assumption.
      * injection E2 as <-. split; [|split].
        -- split; [|reflexivity]. intros _. apply Hstep. right; auto.
        -- apply listed_skip; [assumption|]. intros (_ & _ & b & Hb & Hc).
           rewrite <- (sample_fun _ _ _ _ Ea Hb) in Hc. congruence.
        -- apply listed_skip; assumption.
    + assert (HL : ~ low_at y y_rise y_fall m') by (intros Hc; apply Hlow in Hc; discriminate).
      assert (HnR : ~ rising_at y y_rise y_fall (S m')).
      { intros (_ & Hc & _). apply HL. replace (S m' - 1)%nat with m' in Hc by lia. exact Hc. }
      destruct (a <. y_fall) eqn:Er.
      * destruct (crossing _ _ _ _ _ _) as [[x j]|e] eqn:Ec; cbn [bind] in E2; [|discriminate].
        injection E2 as <-. split; [|split].
        -- split; [|reflexivity]. intros _. apply Hstep. left; reflexivity.
        -- apply listed_skip; assumption.
        -- apply listed_extend; [exact Hfl| |exists j; exact Ec].
           split; [lia|]. split; [replace (S m' - 1)%nat with m' by lia; exact HL|]. exists a; auto.
      * injection E2 as <-. split; [|split].
        -- split; [discriminate|]. intros Hc. apply Hstep in Hc. destruct Hc as [Hc|[Hc _]]; [congruence|contradiction].
        -- apply listed_skip; assumption.
        -- apply listed_skip; [assumption|]. intros (_ & _ & b & Hb & Hc).
           rewrite <- (sample_fun _ _ _ _ Ea Hb) in Hc. congruence.
Qed.

Lemma edges_spec t y y_rise y_half y_fall r f : proper_band y y_rise y_fall ->
  edges t y y_rise y_half y_fall = Ok (r, f) ->
  listed_at (length y) (rising_at y y_rise y_fall) (half_value t y y_half) r /\
  listed_at (length y) (falling_at y y_rise y_fall) (half_value t y y_half) f.
Proof.
  intros Hband He. unfold edges in He.
  destruct (get y 0) as [y0|e] eqn:E0; cbn [bind] in He; [|discriminate].
  apply get_inv in E0.
  destruct (foldM _ _ _) as [s|e] eqn:Ef; cbn [bind] in He; [|discriminate].
  assert (Hl : (0 < length y)%nat) by (apply sample_lt in E0; exact E0).
  pose proof (edges_fold_spec t y y_rise y_half y_fall y0 Hband E0 (length y) s ltac:(lia) Ef) as Hs.
  destruct s as [[low r'] f']. injection He as <- <-. tauto.
Qed.

(** Between two rising edges there is a falling edge, and conversely. *)
Lemma low_decidable y y_rise y_fall : forall m, (m < length y)%nat ->
  low_at y y_rise y_fall m \/ ~ low_at y y_rise y_fall m.
Proof.
  induction m as [|m IH]; intros Hm.
  - destruct (sample_ex y 0 Hm) as [a Ha]. rewrite (low_0 y y_rise y_fall a Ha).
    destruct (a <. y_fall); [left; reflexivity|right; discriminate].
  - destruct (sample_ex y (S m) Hm) as [a Ha].
    destruct (IH ltac:(lia)) as [Hl|Hl]; pose proof (low_dec_step y y_rise y_fall m a Ha) as Hs.
    + destruct (a <. y_fall) eqn:E1; [left; apply Hs; auto|].
      destruct (a >. y_rise) eqn:E2; [right|left; apply Hs; auto].
      intros Hc. apply Hs in Hc. destruct Hc as [Hc|[_ Hc]]; congruence.
    + destruct (a <. y_fall) eqn:E1; [left; apply Hs; auto|].
      right. intros Hc. apply Hs in Hc. destruct Hc as [Hc|[Hc _]]; [congruence|contradiction].
Qed.

Lemma falling_between y y_rise y_fall : forall d i, (i + d < length y)%nat ->
  ~ low_at y y_rise y_fall i -> low_at y y_rise y_fall (i + d) ->
  exists k, (i < k <= i + d)%nat /\ falling_at y y_rise y_fall k.
Proof.
  induction d as [|d IH]; intros i Hi Hn Hl.
  - rewrite Nat.add_0_r in Hl. contradiction.
  - destruct (low_decidable y y_rise y_fall (i + d) ltac:(lia)) as [Hd|Hd].
    + destruct (IH i ltac:(lia) Hn Hd) as (k & Hk & Hf). exists k. split; [lia|exact Hf].
    + exists (i + S d)%nat. split; [lia|].
      destruct (sample_ex y (i + S d) ltac:(lia)) as [a Ha].
      split; [lia|]. replace (i + S d - 1)%nat with (i + d)%nat by lia. split; [exact Hd|].
      exists a. split; [exact Ha|]. replace (i + S d)%nat with (S (i + d)) in * by lia.
      apply (low_dec_step y y_rise y_fall (i + d) a Ha) in Hl. tauto.
Qed.

Lemma rising_between y y_rise y_fall : forall d i, (i + d < length y)%nat ->
  low_at y y_rise y_fall i -> ~ low_at y y_rise y_fall (i + d) ->
  exists k, (i < k <= i + d)%nat /\ rising_at y y_rise y_fall k.
Proof.
  induction d as [|d IH]; intros i Hi Hl Hn.
  - rewrite Nat.add_0_r in Hn. contradiction.
  - destruct (low_decidable y y_rise y_fall (i + d) ltac:(lia)) as [Hd|Hd].
    + exists (i + S d)%nat. split; [lia|].
      destruct (sample_ex y (i + S d) ltac:(lia)) as [a Ha].
      split; [lia|]. replace (i + S d - 1)%nat with (i + d)%nat by lia. split; [exact Hd|].
      exists a. split; [exact Ha|]. replace (i + S d)%nat with (S (i + d)) in * by lia.
      destruct (a >. y_rise) eqn:E; [reflexivity|]. exfalso. apply Hn.
      apply (low_dec_step y y_rise y_fall (i + d) a Ha). right; auto.
    + destruct (IH i ltac:(lia) Hl Hd) as (k & Hk & Hf). exists k. split; [lia|exact Hf].
Qed.

Lemma rising_then_high y y_rise y_fall i : proper_band y y_rise y_fall ->
  rising_at y y_rise y_fall i -> ~ low_at y y_rise y_fall i.
Proof.
  intros Hb (H1 & _ & a & Ha & Hr). destruct i as [|i]; [lia|].
  intros Hc. apply (low_dec_step y y_rise y_fall i a Ha) in Hc. destruct Hc as [Hc|[_ Hc]]; [|congruence].
  apply (Hb a); [apply nth_error_In in Ha; exact Ha|exact Hc|exact Hr].
Qed.

Lemma falling_then_low y y_rise y_fall i :
  falling_at y y_rise y_fall i -> low_at y y_rise y_fall i.
Proof.
  intros (H1 & _ & a & Ha & Hr). destruct i as [|i]; [lia|].
  apply (low_dec_step y y_rise y_fall i a Ha). left; exact Hr.
Qed.

Lemma alternation y y_rise y_fall i k : proper_band y y_rise y_fall -> (i < k)%nat ->
  (rising_at y y_rise y_fall i -> rising_at y y_rise y_fall k ->
     exists m, (i < m < k)%nat /\ falling_at y y_rise y_fall m) /\
  (falling_at y y_rise y_fall i -> falling_at y y_rise y_fall k ->
     exists m, (i < m < k)%nat /\ rising_at y y_rise y_fall m).
Proof.
  intros Hb Hik. split; intros Hi Hk.
  - pose proof (rising_then_high y y_rise y_fall i Hb Hi) as Hn.
    destruct Hk as (Hk1 & Hl & a & Ha & _). apply sample_lt in Ha.
    replace (k - 1)%nat with (i + (k - 1 - i))%nat in Hl by lia.
    destruct (falling_between y y_rise y_fall (k - 1 - i) i ltac:(lia) Hn Hl) as (m & Hm & Hf).
    exists m. split; [lia|exact Hf].
  - pose proof (falling_then_low y y_rise y_fall i Hi) as Hl.
    destruct Hk as (Hk1 & Hn & a & Ha & _). apply sample_lt in Ha.
    replace (k - 1)%nat with (i + (k - 1 - i))%nat in Hn by lia.
    destruct (rising_between y y_rise y_fall (k - 1 - i) i ltac:(lia) Hl Hn) as (m & Hm & Hf).
    exists m. split; [lia|exact Hf].
Qed.

(** *** hits and is_hitting *)
Lemma path_loop_agree ti yi tp yp (pt py : list A) : forall l acc,
  match foldM (fun acc ii =>
           a <- get pt ii ;; b <- get py ii ;; c <- get pt (ii - 1) ;; d <- get py (ii - 1) ;;
           match intersection ti yi tp yp a b c d true with
           | Some point => Ok (acc ++ [point]) | None => Ok acc end) acc l with
  | Ok h => exists t, h = acc ++ t /\
      existsM (fun ii =>
           a <- get pt ii ;; b <- get py ii ;; c <- get pt (ii - 1) ;; d <- get py (ii - 1) ;;
           Ok (match intersection ti yi tp yp a b c d true with Some _ => true | None => false end)) l
      = Ok (match t with [] => false | _ => true end)
  | Err e =>
      existsM (fun ii =>
           a <- get pt ii ;; b <- get py ii ;; c <- get pt (ii - 1) ;; d <- get py (ii - 1) ;;
           Ok (match intersection ti yi tp yp a b c d true with Some _ => true | None => false end)) l
      = Err e \/
      existsM (fun ii =>
           a <- get pt ii ;; b <- get py ii ;; c <- get pt (ii - 1) ;; d <- get py (ii - 1) ;;
           Ok (match intersection ti yi tp yp a b c d true with Some _ => true | None => false end)) l
      = Ok true
  end.
Proof.
  induction l as [|ii l IH]; intros acc; cbn [foldM existsM].
  - exists []. rewrite app_nil_r. auto.
  - destruct (get pt ii) as [a|e]; cbn [bind]; [|auto].
    destruct (get py ii) as [b|e]; cbn [bind]; [|auto].
    destruct (get pt (ii - 1)) as [c|e]; cbn [bind]; [|auto].
    destruct (get py (ii - 1)) as [d|e]; cbn [bind]; [|auto].
    destruct (intersection ti yi tp yp a b c d true) as [p|].
    + specialize (IH (acc ++ [p])). destruct (foldM _ _ l) as [h|e]; [|auto].
      destruct IH as (t & -> & _). exists (p :: t). rewrite <- app_assoc. auto.
    + apply IH.
Qed.

Definition seg_step (t y : list A) (pt py : list A) (a b c d : A) acc i :=
      ti <- get t i ;;
      tp <- get t (i - 1) ;;
      yi <- get y i ;;
      yp <- get y (i - 1) ;;
      if skip_segment tp ti yp yi a b c d then Ok acc
      else hits_path_loop ti yi tp yp pt py acc.
Definition seg_test (t y : list A) (pt py : list A) (a b c d : A) i :=
      ti <- get t i ;;
      tp <- get t (i - 1) ;;
      yi <- get y i ;;
      yp <- get y (i - 1) ;;
      if skip_segment tp ti yp yi a b c d then Ok false
      else is_hitting_path_loop ti yi tp yp pt py.

(** Generic agreement of an accumulating loop and an early-exit loop. *)
Lemma foldM_existsM {X P} (f : list P -> X -> result (list P)) (g : X -> result bool) l :
  (forall acc x, match f acc x with
     | Ok h => exists t, h = acc ++ t /\ g x = Ok (match t with [] => false | _ => true end)
     | Err e => g x = Err e \/ g x = Ok true end) ->
  forall acc, match foldM f acc l with
     | Ok h => exists t, h = acc ++ t /\ existsM g l = Ok (match t with [] => false | _ => true end)
     | Err e => existsM g l = Err e \/ existsM g l = Ok true end.
Proof.
  intros Hstep. induction l as [|x l IH]; intros acc; cbn [foldM existsM].
  - exists []. rewrite app_nil_r. auto.
  - specialize (Hstep acc x). destruct (f acc x) as [h|e].
    + destruct Hstep as (t & -> & Hg). rewrite Hg. specialize (IH (acc ++ t)).
      destruct (foldM f (acc ++ t) l) as [h|e].
      * destruct IH as (t' & -> & Hg'). exists (t ++ t'). rewrite app_assoc. split; [reflexivity|].
        destruct t; [exact Hg'|reflexivity].
      * destruct t; [exact IH|right; reflexivity].
    + destruct Hstep as [-> | ->]; auto.
Qed.

Lemma hits_is_hitting (t y : list A) paths :
  match hits t y paths with
  | Ok h => is_hitting t y paths = Ok (match h with [] => false | _ => true end)
  | Err e => is_hitting t y paths = Err e \/ is_hitting t y paths = Ok true
  end.
Proof.
  unfold hits, is_hitting.
  match goal with |- match foldM ?f ?a ?l with _ => _ end =>
    match goal with |- context [existsM ?g l] => pose proof (foldM_existsM f g l) as Hag end end.
  match type of Hag with ?P -> _ => assert (Hstep : P) end.
  { intros acc path. cbv beta zeta.
    destruct (py_min (map fst path)) as [a|e]; cbn [bind]; [|auto].
    destruct (py_max (map fst path)) as [b|e]; cbn [bind]; [|auto].
    destruct (py_min (map snd path)) as [c|e]; cbn [bind]; [|auto].
    destruct (py_max (map snd path)) as [d|e]; cbn [bind]; [|auto].
    apply foldM_existsM. clear acc. intros acc i.
    destruct (get t i) as [ti|e]; cbn [bind]; [|auto].
    destruct (get t (i - 1)) as [tp|e]; cbn [bind]; [|auto].
    destruct (get y i) as [yi|e]; cbn [bind]; [|auto].
    destruct (get y (i - 1)) as [yp|e]; cbn [bind]; [|auto].
    destruct (skip_segment _ _ _ _ _ _ _ _).
    - exists []. rewrite app_nil_r. auto.
    - unfold hits_path_loop, is_hitting_path_loop. apply path_loop_agree. }
  specialize (Hag Hstep []).
  destruct (foldM _ _ _) as [h|e]; [|exact Hag].
  destruct Hag as (t' & -> & Hg). exact Hg.
Qed.

End Generic.
