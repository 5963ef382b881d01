From Coq Require Import List ZArith Bool Lia Sorted QArith Reals Lra SpecFloat.
Import ListNotations.
From Verif Require Import Base Num RBool LinesModel LinesCyModel LinesSpec LinesProofs.
Local Open Scope num_scope.
Local Open Scope result_scope.

(** [<] is a strict order: the only law the agreement of hits needs.  It holds
    of IEEE doubles, NaN included. *)
Class NumOrd (A : Type) `{Num A} := {
  nlt_irrefl : forall x : A, (x <. x) = false;
  nlt_trans : forall x y z : A, (x <. y) = true -> (y <. z) = true -> (x <. z) = true }.

#[global] Instance NumOrdR : NumOrd R.
Proof.
  split; cbn; intros.
  - apply Rltb_false. lra.
  - rewrite Rltb_true in * . lra.
Qed.

#[global] Instance NumOrdQ : NumOrd Q.
Proof.
  assert (E : forall x y : Q, (x <. y) = true <-> (x < y)%Q).
  { intros x y. cbn. unfold Qltb, Qlt. rewrite Z.ltb_lt. reflexivity. }
  split; intros.
  - destruct (x <. x) eqn:Ex; [|reflexivity]. apply E in Ex. exfalso. exact (Qlt_irrefl x Ex).
  - apply E. apply Qlt_trans with y; apply E; assumption.
Qed.

Lemma SFcompare_lt (x y : spec_float) : SFltb x y = true <-> SFcompare x y = Some Lt.
Proof. unfold SFltb. destruct (SFcompare x y) as [[]|]; split; congruence. Qed.

#[global] Instance NumOrdF64 : NumOrd spec_float.
Proof.
  split; cbn.
  - intros x. unfold SFltb, SFcompare. destruct x as [s|s| |s m e]; try reflexivity.
    + destruct s; reflexivity.
    + rewrite Z.compare_refl. change (Pcompare m m Eq) with (Pos.compare m m).
      destruct s; rewrite ?Pos.compare_refl, ?Pos.compare_cont_refl; reflexivity.
  - intros x y z. rewrite !SFcompare_lt.
    unfold SFcompare. destruct x as [sx|sx| |sx mx ex], y as [sy|sy| |sy my ey], z as [sz|sz| |sz mz ez];
      try discriminate; try reflexivity;
      try (destruct sx; discriminate); try (destruct sy; discriminate); try (destruct sz; discriminate);
      try (destruct sx, sy; discriminate); try (destruct sy, sz; discriminate);
      try (destruct sx; reflexivity); try (destruct sz; reflexivity);
      try (destruct sx, sz; try discriminate; reflexivity);
      try (destruct sx, sy, sz; try discriminate; reflexivity).
    change (Pcompare mx my Eq) with (Pos.compare mx my).
    change (Pcompare my mz Eq) with (Pos.compare my mz).
    change (Pcompare mx mz Eq) with (Pos.compare mx mz).
    destruct sx, sy, sz; try discriminate; try reflexivity;
      destruct (Z.compare_spec ex ey), (Z.compare_spec ey ez); try discriminate; subst;
      try (destruct (Pos.compare_spec mx my); cbn; try discriminate);
      try (destruct (Pos.compare_spec my mz); cbn; try discriminate);
      intros _ _; repeat match goal with
      | |- context [Z.compare ?a ?b] => destruct (Z.compare_spec a b); try lia; try reflexivity
      | |- context [Pos.compare ?a ?b] => destruct (Pos.compare_spec a b); try lia; try reflexivity
      end.
Qed.

Section Generic.
Context {A : Type} `{Num A}.

Lemma cget_getz {X} (l : list X) i : (0 <= i < Z.of_nat (length l))%Z -> cget l i = getz l i.
Proof.
  intros Hi. unfold cget, getz, get. destruct (Z.leb_spec 0 i); [|lia].
  destruct (nth_error l (Z.to_nat i)) eqn:E; [reflexivity|].
  apply nth_error_None in E. lia.
Qed.

Lemma cget_get {X} (l : list X) (i : nat) : (i < length l)%nat -> cget l (Z.of_nat i) = get l i.
Proof. intros Hi. rewrite cget_getz by lia. apply getz_nat. Qed.

Lemma c_loop_agree (s : list A) v (fwd : bool) : forall fuel i j,
  (1 <= i < Z.of_nat (length s))%Z ->
  ((if fwd then Z.of_nat (length s) - i else i) <= Z.of_nat fuel)%Z ->
  crossing_loop (S fuel) s i (Z.of_nat (length s)) v fwd = Ok j ->
  crossing_c_loop fuel s i (Z.of_nat (length s)) v fwd =
    Ok (j, (1 <=? j)%Z && (j <? Z.of_nat (length s))%Z).
Proof.
  induction fuel as [|fuel IH]; intros i j Hi Hf Hl.
  { exfalso. destruct fwd; lia. }
  remember (S fuel) as fuel1. cbn [crossing_loop] in Hl. subst fuel1.
  destruct (Z.ltb_spec 0 i); [|lia]. destruct (Z.ltb_spec i (Z.of_nat (length s))); [|lia].
  cbn [andb] in Hl. cbn [crossing_c_loop]. rewrite !cget_getz by lia.
  destruct (getz s i) as [a|e]; cbn [bind] in * ; [|discriminate].
  destruct (getz s (i - 1)) as [b|e]; cbn [bind] in * ; [|discriminate].
  destruct (Bool.eqb (a >. v) (b >. v)).
  - destruct fwd.
    + destruct (Z.leb_spec (Z.of_nat (length s)) (i + 1)).
      * cbn [crossing_loop] in Hl. destruct (Z.ltb_spec 0 (i + 1)); [|lia].
        destruct (Z.ltb_spec (i + 1) (Z.of_nat (length s))); [lia|]. cbn [andb] in Hl.
        injection Hl as <-. destruct (Z.leb_spec 1 (i + 1)); [|lia].
        destruct (Z.ltb_spec (i + 1) (Z.of_nat (length s))); [lia|]. reflexivity.
      * apply IH; [lia|lia|exact Hl].
    + destruct (Z.ltb_spec (i - 1) 1).
      * cbn [crossing_loop] in Hl. destruct (Z.ltb_spec 0 (i - 1)); [lia|]. cbn [andb] in Hl.
        injection Hl as <-. destruct (Z.leb_spec 1 (i - 1)); [lia|]. reflexivity.
      * apply IH; [lia|lia|exact Hl].
  - injection Hl as <-. destruct (Z.leb_spec 1 i); [|lia].
    destruct (Z.ltb_spec i (Z.of_nat (length s))); [|lia]. reflexivity.
Qed.

Lemma loop_more_fuel (s : list A) v fwd n : forall fuel i j,
  crossing_loop fuel s i n v fwd = Ok j -> crossing_loop (S fuel) s i n v fwd = Ok j.
Proof.
  induction fuel as [|fuel IH]; intros i j Hl; [discriminate|].
  remember (S fuel) as fuel1. cbn [crossing_loop]. rewrite Heqfuel1 in Hl. cbn [crossing_loop] in Hl.
  destruct ((0 <? i)%Z && (i <? n)%Z); [|exact Hl].
  destruct (getz s i) as [a|e]; cbn [bind] in * ; [|discriminate].
  destruct (getz s (i - 1)) as [b|e]; cbn [bind] in * ; [|discriminate].
  destruct (Bool.eqb (a >. v) (b >. v)); [|exact Hl]. subst fuel1. apply IH. exact Hl.
Qed.

Lemma crossing_c_agree (ret s : list A) i v fwd : length ret = length s ->
  crossing_c ret s i v fwd (Z.of_nat (length s)) = crossing ret s i v fwd 0.
Proof.
  intros Hlen.
  destruct (Z_lt_le_dec i 1) as [Hlo|Hlo]; [|destruct (Z_lt_le_dec i (Z.of_nat (length s))) as [Hhi|Hhi]].
  - rewrite crossing_outside by lia. unfold crossing_c. destruct (Z.ltb_spec i 1); [reflexivity|lia].
  - unfold crossing_c, crossing. cbn [Z.eqb].
    destruct (Z.ltb_spec i 1); [lia|]. destruct (Z.leb_spec (Z.of_nat (length s)) i); [lia|]. cbn [orb].
    rewrite Nat2Z.id.
    assert (exists j, crossing_loop (S (length s)) s i (Z.of_nat (length s)) v fwd = Ok (Z.of_nat j)) as [j Hj].
    { replace i with (Z.of_nat (Z.to_nat i)) by lia. destruct fwd.
      - destruct (loop_fwd s v (length s - Z.to_nat i) (Z.to_nat i) (S (length s))) as (j & Hj & _); try lia.
        exists j. exact Hj.
      - destruct (loop_bwd s v (Z.to_nat i) (S (length s))) as (j & Hj & _); try lia. exists j. exact Hj. }
    rewrite (c_loop_agree s v fwd (S (length s)) i (Z.of_nat j)); [|lia|destruct fwd; lia|apply loop_more_fuel; exact Hj].
    rewrite Hj. cbn [bind].
    destruct (Z.leb_spec 1 (Z.of_nat j)), (Z.ltb_spec (Z.of_nat j) 1); try lia; cbn [andb orb]; [|reflexivity].
    destruct (Z.ltb_spec (Z.of_nat j) (Z.of_nat (length s))), (Z.leb_spec (Z.of_nat (length s)) (Z.of_nat j));
      try lia; [|reflexivity].
    rewrite !cget_getz by lia. reflexivity.
  - rewrite crossing_outside by lia. unfold crossing_c.
    destruct (Z.ltb_spec i 1); [lia|]. destruct (Z.leb_spec (Z.of_nat (length s)) i); [reflexivity|lia].
Qed.

Lemma crossing_cy_agree (rnd : A -> A) ret s i v fwd : length ret = length s ->
  crossing_cy rnd ret s i v fwd 0 = crossing ret s i (rnd v) fwd 0.
Proof. intros Hl. unfold crossing_cy. cbn [Z.eqb]. apply crossing_c_agree. exact Hl. Qed.

(** *** edges *)
Lemma set_nth_prefix {X} (buf : list X) (pre : list X) x : (length pre < length buf)%nat ->
  firstn (length pre) buf = pre ->
  exists buf', set_nth buf (length pre) x = Some buf' /\ length buf' = length buf /\
    firstn (S (length pre)) buf' = pre ++ [x].
Proof.
  revert pre. induction buf as [|b buf IH]; intros pre Hl Hp; [cbn in Hl; lia|].
  destruct pre as [|p pre]; cbn [length set_nth].
  - exists (x :: buf). repeat split.
  - cbn [length firstn] in Hp, Hl. injection Hp as <- Hp.
    destruct (IH pre ltac:(lia) Hp) as (buf' & -> & Hlen & Hf).
    exists (b :: buf'). split; [reflexivity|]. split; [cbn [length]; lia|].
    change (firstn (S (S (length pre))) (b :: buf')) with (b :: firstn (S (length pre)) buf').
    rewrite Hf. reflexivity.
Qed.

Definition rel (n i : nat) (s : bool * list (option A) * list (option A))
    (s' : bool * list (option A) * nat * list (option A) * nat) : Prop :=
  let '(low, r, f) := s in
  let '(low', br, ir, bf, jf) := s' in
  low' = low /\ ir = length r /\ jf = length f /\ length br = n /\ length bf = n /\
  firstn ir br = r /\ firstn jf bf = f /\ (length r + length f < i)%nat.

Lemma edges_np_sim (t y : list A) y_rise y_half y_fall : length t = length y ->
  forall m s, (1 <= m <= length y)%nat -> forall low0,
  foldM (edges_step t y y_rise y_half y_fall 0) (low0, [], []) (range 1 m) = Ok s ->
  exists s', foldM (edges_np_step t y y_rise y_half y_fall (Z.of_nat (length t)))
     (low0, repeat (Some (nofZ 0)) (length t), O, repeat (Some (nofZ 0)) (length t), O) (range 1 m) = Ok s' /\
     rel (length t) m s s'.
Proof.
  intros Hlen. induction m as [|m IH]; intros s Hm low0 Hf; [lia|].
  destruct (Nat.eq_dec m 0) as [->|Hm0].
  - cbn in Hf. injection Hf as <-. eexists. split; [reflexivity|].
    cbn. rewrite repeat_length. repeat split; lia.
  - rewrite range_snoc, foldM_app in Hf by lia. rewrite range_snoc, foldM_app by lia.
    destruct (foldM (edges_step _ _ _ _ _ _) _ (range 1 m)) as [s1|e] eqn:E1; cbn [bind] in Hf; [|discriminate].
    destruct (IH s1 ltac:(lia) low0 E1) as (s1' & -> & Hrel). cbn [bind].
    destruct s1 as [[low r] f]. destruct s1' as [[[[low' br] ir] bf] jf].
    destruct Hrel as (-> & -> & -> & Hbr & Hbf & Hr & Hff & Hcnt).
    cbn [foldM] in Hf |- * .
    unfold edges_step in Hf. unfold edges_np_step. rewrite Hlen, crossing_n.
    destruct (get y m) as [a|e]; cbn [bind] in * ; [|discriminate].
    destruct low.
    + destruct (a >. y_rise).
      * destruct (crossing t y (Z.of_nat m) y_half false 0) as [[c j]|e]; cbn [bind fst] in * ; [|discriminate].
        injection Hf as <-.
        destruct (set_nth_prefix br r c ltac:(lia) Hr) as (br' & -> & Hl' & Hf').
        eexists. split; [reflexivity|]. cbn [rel]. rewrite !app_length. cbn [length].
        replace (length r + 1)%nat with (S (length r)) by lia. repeat split; try assumption; try lia.
      * injection Hf as <-. eexists. split; [reflexivity|]. cbn [rel]. repeat split; try assumption; lia.
    + destruct (a <. y_fall).
      * destruct (crossing t y (Z.of_nat m) y_half false 0) as [[c j]|e]; cbn [bind fst] in * ; [|discriminate].
        injection Hf as <-.
        destruct (set_nth_prefix bf f c ltac:(lia) Hff) as (bf' & -> & Hl' & Hf').
        eexists. split; [reflexivity|]. cbn [rel]. rewrite !app_length. cbn [length].
        replace (length f + 1)%nat with (S (length f)) by lia. repeat split; try assumption; try lia.
      * injection Hf as <-. eexists. split; [reflexivity|]. cbn [rel]. repeat split; try assumption; lia.
Qed.

Lemma edges_np_sim_err (t y : list A) y_rise y_half y_fall : length t = length y ->
  forall m e, (1 <= m <= length y)%nat -> forall low0,
  foldM (edges_step t y y_rise y_half y_fall 0) (low0, [], []) (range 1 m) = Err e ->
  foldM (edges_np_step t y y_rise y_half y_fall (Z.of_nat (length t)))
     (low0, repeat (Some (nofZ 0)) (length t), O, repeat (Some (nofZ 0)) (length t), O) (range 1 m) = Err e.
Proof.
  intros Hlen. induction m as [|m IH]; intros e Hm low0 Hf; [lia|].
  destruct (Nat.eq_dec m 0) as [->|Hm0]; [discriminate|].
  rewrite range_snoc, foldM_app in Hf by lia. rewrite range_snoc, foldM_app by lia.
  destruct (foldM (edges_step _ _ _ _ _ _) _ (range 1 m)) as [s1|e1] eqn:E1; cbn [bind] in Hf.
  2: { injection Hf as ->. rewrite (IH e ltac:(lia) low0 E1). reflexivity. }
  destruct (edges_np_sim t y y_rise y_half y_fall Hlen m s1 ltac:(lia) low0 E1) as (s1' & -> & Hrel). cbn [bind].
  destruct s1 as [[low r] f]. destruct s1' as [[[[low' br] ir] bf] jf].
  destruct Hrel as (-> & _).
  cbn [foldM] in Hf |- * .
  unfold edges_step in Hf. unfold edges_np_step. rewrite Hlen, crossing_n.
  destruct (get y m) as [a|e1]; cbn [bind] in * ; [|injection Hf as ->; reflexivity].
  destruct low.
  - destruct (a >. y_rise); [|discriminate].
    destruct (crossing t y (Z.of_nat m) y_half false 0) as [[c j]|e1]; cbn [bind fst] in * ; [discriminate|injection Hf as ->; reflexivity].
  - destruct (a <. y_fall); [|discriminate].
    destruct (crossing t y (Z.of_nat m) y_half false 0) as [[c j]|e1]; cbn [bind fst] in * ; [discriminate|injection Hf as ->; reflexivity].
Qed.

Lemma edges_np_agree (t y : list A) y_rise y_half y_fall : length t = length y ->
  edges_np t y y_rise y_half y_fall = edges t y y_rise y_half y_fall.
Proof.
  intros Hlen. unfold edges_np, edges.
  destruct (get y 0) as [y0|e] eqn:E0; cbn [bind]; [|reflexivity].
  apply get_inv in E0. pose proof (sample_lt _ _ _ E0) as Hy.
  replace (range 1 (length t)) with (range 1 (length y)) by (rewrite Hlen; reflexivity).
  destruct (foldM (edges_step _ _ _ _ _ _) _ _) as [s|e] eqn:E1.
  - destruct (edges_np_sim t y y_rise y_half y_fall Hlen (length y) s ltac:(lia) _ E1) as (s' & -> & Hrel).
    cbn [bind]. destruct s as [[low r] f]. destruct s' as [[[[low' br] ir] bf] jf].
    destruct Hrel as (_ & _ & _ & _ & _ & -> & -> & _). reflexivity.
  - rewrite (edges_np_sim_err t y y_rise y_half y_fall Hlen (length y) e ltac:(lia) _ E1). reflexivity.
Qed.

Lemma foldM_ext_in {S X} (f g : S -> X -> result S) l : (forall s x, In x l -> f s x = g s x) ->
  forall s, foldM f s l = foldM g s l.
Proof.
  induction l as [|x l IH]; intros Hfg s; cbn [foldM]; [reflexivity|].
  rewrite Hfg by (left; reflexivity). destruct (g s x); [|reflexivity]. apply IH.
  intros; apply Hfg; right; assumption.
Qed.
Lemma existsM_ext_in {X} (f g : X -> result bool) l : (forall x, In x l -> f x = g x) ->
  existsM f l = existsM g l.
Proof.
  induction l as [|x l IH]; intros Hfg; cbn [existsM]; [reflexivity|].
  rewrite Hfg by (left; reflexivity). destruct (g x) as [[]|]; try reflexivity. apply IH.
  intros; apply Hfg; right; assumption.
Qed.

Lemma foldM_inv {S X} (P : S -> Prop) (f : S -> X -> result S) l :
  (forall s x s', In x l -> P s -> f s x = Ok s' -> P s') ->
  forall s s', P s -> foldM f s l = Ok s' -> P s'.
Proof.
  induction l as [|x l IH]; intros Hp s s' Hs Hf; cbn [foldM] in Hf; [injection Hf as <-; exact Hs|].
  destruct (f s x) as [s1|] eqn:E; [|discriminate].
  apply (IH ltac:(intros; eapply Hp; [right; eassumption|eassumption|eassumption]) s1 s'); [|exact Hf].
  eapply Hp; [left; reflexivity|exact Hs|exact E].
Qed.

(** The compiled edge detector, where the buffers are not bounds checked. *)
Lemma edges_c_sim (t y : list A) y_rise y_half y_fall low0 : length t = length y ->
  forall m, (1 <= m <= length y)%nat ->
  foldM (edges_c_step t y y_rise y_half y_fall (Z.of_nat (length t)))
     (low0, repeat (Some (nofZ 0)) (length t), O, repeat (Some (nofZ 0)) (length t), O) (range 1 m) =
  foldM (edges_np_step t y y_rise y_half y_fall (Z.of_nat (length t)))
     (low0, repeat (Some (nofZ 0)) (length t), O, repeat (Some (nofZ 0)) (length t), O) (range 1 m).
Proof.
  intros Hlen. induction m as [|m IH]; intros Hm; [lia|].
  destruct (Nat.eq_dec m 0) as [->|Hm0]; [reflexivity|].
  rewrite range_snoc, !foldM_app by lia. rewrite IH by lia.
  destruct (foldM (edges_np_step _ _ _ _ _ _) _ (range 1 m)) as [s'|e] eqn:E; cbn [bind]; [|reflexivity].
  destruct (foldM (edges_step t y y_rise y_half y_fall 0) (low0, [], []) (range 1 m)) as [s|e1] eqn:E1.
  2: { rewrite (edges_np_sim_err t y y_rise y_half y_fall Hlen m e1 ltac:(lia) low0 E1) in E. discriminate. }
  destruct (edges_np_sim t y y_rise y_half y_fall Hlen m s ltac:(lia) low0 E1) as (s2 & E2 & Hrel).
  rewrite E in E2. injection E2 as <-.
  destruct s as [[low r] f]. destruct s' as [[[[low' br] ir] bf] jf].
  destruct Hrel as (-> & -> & -> & Hbr & Hbf & Hr & Hff & Hcnt).
  cbn [foldM]. unfold edges_c_step, edges_np_step. rewrite cget_get by lia.
  rewrite Hlen, crossing_n, crossing_c_agree by assumption.
  destruct (get y m) as [a|e]; cbn [bind]; [|reflexivity].
  destruct low.
  - destruct (a >. y_rise); [|reflexivity].
    destruct (crossing t y (Z.of_nat m) y_half false 0) as [[c j]|e]; cbn [bind fst]; [|reflexivity].
    destruct (set_nth_prefix br r c ltac:(lia) Hr) as (br' & Es & _). unfold cset. rewrite Es. reflexivity.
  - destruct (a <. y_fall); [|reflexivity].
    destruct (crossing t y (Z.of_nat m) y_half false 0) as [[c j]|e]; cbn [bind fst]; [|reflexivity].
    destruct (set_nth_prefix bf f c ltac:(lia) Hff) as (bf' & Es & _). unfold cset. rewrite Es. reflexivity.
Qed.

Lemma edges_c_agree (t y : list A) y_rise y_half y_fall : length t = length y -> y <> [] ->
  edges_c t y y_rise y_half y_fall = edges t y y_rise y_half y_fall.
Proof.
  intros Hlen Hne. rewrite <- edges_np_agree by exact Hlen. unfold edges_c, edges_np.
  assert (Hy : (0 < length y)%nat) by (destruct y; [congruence|cbn; lia]).
  change 0%Z with (Z.of_nat 0). rewrite cget_get by exact Hy.
  destruct (get y 0) as [y0|e]; cbn [bind]; [|reflexivity].
  replace (range 1 (length t)) with (range 1 (length y)) by (rewrite Hlen; reflexivity).
  rewrite edges_c_sim by (try assumption; lia). reflexivity.
Qed.

(** *** hits *)
Context {HO : NumOrd A}.

Lemma minmax_fold (l : list A) : forall mn mx, (mx <. mn) = false ->
  fold_left (fun mm p => let '(mn, mx) := mm in
            if p >. mx then (mn, p) else if p <. mn then (p, mx) else mm) l (mn, mx) =
  (fold_left (fun m y => if y <. m then y else m) l mn,
   fold_left (fun m y => if y >. m then y else m) l mx).
Proof.
  induction l as [|p l IH]; intros mn mx Hm; cbn [fold_left]; [reflexivity|].
  destruct (p >. mx) eqn:E1.
  - assert (E2 : (p <. mn) = false).
    { destruct (p <. mn) eqn:E2; [|reflexivity]. rewrite <- Hm. symmetry. apply nlt_trans with p; assumption. }
    rewrite E2. apply IH. exact E2.
  - destruct (p <. mn) eqn:E2.
    + apply IH. exact E1.
    + apply IH. exact Hm.
Qed.

Lemma minmax_c_agree (l : list A) : l <> [] ->
  exists mn mx, minmax_c l = Ok (mn, mx) /\ py_min l = Ok mn /\ py_max l = Ok mx.
Proof.
  destruct l as [|x l]; [congruence|]. intros _. cbn [minmax_c py_min py_max].
  rewrite minmax_fold by apply nlt_irrefl. do 2 eexists. repeat split; reflexivity.
Qed.

Lemma map_ne {X Y} (f : X -> Y) l : l <> [] -> map f l <> [].
Proof. destruct l; [congruence|discriminate]. Qed.

Lemma hits_c_agree (t y : list A) paths : length t = length y -> Forall (fun p => p <> []) paths ->
  hits_c t y paths = hits t y paths.
Proof.
  intros Hlen Hne. rewrite Forall_forall in Hne. unfold hits_c, hits.
  apply foldM_ext_in. intros acc path Hp. specialize (Hne path Hp). cbv zeta.
  destruct (minmax_c_agree (map fst path) (map_ne _ _ Hne)) as (a & b & -> & -> & ->).
  destruct (minmax_c_agree (map snd path) (map_ne _ _ Hne)) as (c & d & -> & -> & ->).
  cbn [bind fst snd]. apply foldM_ext_in. intros acc' i Hi. unfold range in Hi. apply in_seq in Hi.
  rewrite !cget_get by lia. reflexivity.
Qed.

Lemma is_hitting_c_agree (t y : list A) paths : length t = length y -> Forall (fun p => p <> []) paths ->
  is_hitting_c t y paths = is_hitting t y paths.
Proof.
  intros Hlen Hne. rewrite Forall_forall in Hne. unfold is_hitting_c, is_hitting.
  apply existsM_ext_in. intros path Hp. specialize (Hne path Hp). cbv zeta.
  destruct (minmax_c_agree (map fst path) (map_ne _ _ Hne)) as (a & b & -> & -> & ->).
  destruct (minmax_c_agree (map snd path) (map_ne _ _ Hne)) as (c & d & -> & -> & ->).
  cbn [bind fst snd]. apply existsM_ext_in. intros i Hi. unfold range in Hi. apply in_seq in Hi.
  rewrite !cget_get by lia. reflexivity.
Qed.

(** The growing array of hits_np_c holds exactly the hits so far. *)
Definition holds (n_t : nat) (l : list (A * A)) (s : list (A * A) * nat * nat) : Prop :=
  let '(buf, n_int, i_int) := s in
  length buf = n_int /\ i_int = length l /\ firstn (length l) buf = l /\ (length l <= n_int)%nat.

Lemma push_np_ok n_t l s x : (0 < n_t)%nat -> holds n_t l s ->
  exists s', push_np n_t s x = Ok s' /\ holds n_t (l ++ [x]) s'.
Proof.
  intros Hn. destruct s as [[buf n_int] i_int]. intros (Hb & -> & Hf & Hle). unfold push_np.
  destruct (Nat.leb_spec n_int (length l)) as [Hc|Hc].
  - assert (Hf' : firstn (length l) (buf ++ repeat (nofZ 0, nofZ 0) n_t) = l).
    { rewrite firstn_app, Hf. replace (length l - length buf)%nat with 0%nat by lia.
      cbn [firstn]. apply app_nil_r. }
    destruct (set_nth_prefix (buf ++ repeat (nofZ 0, nofZ 0) n_t) l x) as (buf' & Hs & Hl & Hf2).
    { rewrite app_length, repeat_length. lia. }
    { exact Hf'. }
    unfold cset. rewrite Hs. cbn [bind]. eexists. split; [reflexivity|].
    rewrite app_length, repeat_length in Hl. cbn [holds]. rewrite app_length. cbn [length].
    replace (length l + 1)%nat with (S (length l)) by lia. repeat split; try assumption; lia.
  - destruct (set_nth_prefix buf l x) as (buf' & Hs & Hl & Hf2); [lia|exact Hf|].
    unfold cset. rewrite Hs. cbn [bind]. eexists. split; [reflexivity|].
    cbn [holds]. rewrite app_length. cbn [length].
    replace (length l + 1)%nat with (S (length l)) by lia. repeat split; try assumption; lia.
Qed.

Lemma foldM_sim {S S' X} (R : S -> S' -> Prop) (f : S -> X -> result S) (g : S' -> X -> result S') l :
  (forall s s' x, In x l -> R s s' ->
     match f s x with Ok s1 => exists s1', g s' x = Ok s1' /\ R s1 s1' | Err e => g s' x = Err e end) ->
  forall s s', R s s' ->
    match foldM f s l with Ok s1 => exists s1', foldM g s' l = Ok s1' /\ R s1 s1' | Err e => foldM g s' l = Err e end.
Proof.
  induction l as [|x l IH]; intros Hstep s s' HR; cbn [foldM]; [eauto|].
  pose proof (Hstep s s' x (or_introl eq_refl) HR) as Hx.
  destruct (f s x) as [s1|e].
  - destruct Hx as (s1' & -> & HR1). apply IH; [|exact HR1]. intros; apply Hstep; [right|]; assumption.
  - rewrite Hx. reflexivity.
Qed.

Lemma hits_np_c_agree (t y : list A) paths : length t = length y -> Forall (fun p => p <> []) paths ->
  hits_np_c t y paths = hits t y paths.
Proof.
  intros Hlen Hne. rewrite Forall_forall in Hne. unfold hits_np_c, hits.
  match goal with |- bind (foldM ?g ?s0 ?l) _ = foldM ?f ?a0 _ =>
    pose proof (foldM_sim (holds (length t)) f g l) as Hsim end.
  match type of Hsim with ?P -> _ => assert (Hstep : P) end.
  { intros acc s path Hp Hh. specialize (Hne path Hp). cbv zeta.
    destruct (minmax_c_agree (map fst path) (map_ne _ _ Hne)) as (a & b & -> & -> & ->).
    destruct (minmax_c_agree (map snd path) (map_ne _ _ Hne)) as (c & d & -> & -> & ->).
    cbn [bind fst snd]. revert acc s Hh. apply foldM_sim.
    intros acc s i Hi Hh. unfold range in Hi. apply in_seq in Hi. rewrite !cget_get by lia.
    destruct (get t i); cbn [bind]; [|reflexivity]. destruct (get t (i - 1)); cbn [bind]; [|reflexivity].
    destruct (get y i); cbn [bind]; [|reflexivity]. destruct (get y (i - 1)); cbn [bind]; [|reflexivity].
    destruct (skip_segment _ _ _ _ _ _ _ _); [eauto|].
    unfold hits_path_loop. revert acc s Hh. apply foldM_sim.
    intros acc s ii Hii Hh.
    destruct (get (map fst path) ii); cbn [bind]; [|reflexivity].
    destruct (get (map snd path) ii); cbn [bind]; [|reflexivity].
    destruct (get (map fst path) (ii - 1)); cbn [bind]; [|reflexivity].
    destruct (get (map snd path) (ii - 1)); cbn [bind]; [|reflexivity].
    destruct (intersection _ _ _ _ _ _ _ _ _) as [x|]; [|eauto].
    destruct (push_np_ok (length t) acc s x ltac:(lia) Hh) as (s' & Hs' & Hh'). eauto. }
  specialize (Hsim Hstep [] (repeat (nofZ 0, nofZ 0) (length t), length t, O)).
  assert (H0 : holds (length t) [] (repeat (nofZ 0, nofZ 0) (length t), length t, O)).
  { cbn [holds]. rewrite repeat_length. cbn. repeat split. lia. }
  specialize (Hsim H0).
  match type of Hsim with match ?r with _ => _ end => destruct r as [h|e] eqn:E end.
  - destruct Hsim as ([[buf n] i] & Hs & Hh). rewrite Hs. cbn [bind].
    destruct Hh as (_ & -> & Hf & _). rewrite Hf. reflexivity.
  - rewrite Hsim. reflexivity.
Qed.
End Generic.
