(** Edges of rational records can be computed: LinesModel over the rationals
    and over the reals agree. *)
From Coq Require Import ZArith QArith Qreals Reals Bool List Lia Lra.
Import ListNotations.
From Verif Require Import Base Num RBool LinesModel.
Local Open Scope R_scope.

Lemma Q2R_ltb a b : Rltb (Q2R a) (Q2R b) = Qltb a b.
Proof.
  unfold Qltb. destruct (Z.ltb_spec (Qnum a * QDen b) (Qnum b * QDen a)) as [L|L].
  - apply Rltb_true. apply Qlt_Rlt. exact L.
  - apply Rltb_false. apply Qle_Rle. exact L.
Qed.
Lemma Q2R_zero b : Reqb (Q2R b) (IZR 0) = Qeq_bool b (inject_Z 0).
Proof.
  unfold Reqb. destruct (Req_EM_T (Q2R b) (IZR 0)) as [E|N]; destruct (Qeq_bool b (inject_Z 0)) eqn:Q; try reflexivity.
  - apply Qeq_bool_neq in Q. destruct Q. apply eqR_Qeq. rewrite E. unfold Q2R, inject_Z. cbn. lra.
  - apply Qeq_bool_eq in Q. destruct N. apply Qeq_eqR in Q. rewrite Q. unfold Q2R, inject_Z. cbn. lra.
Qed.
Lemma Q2R_red a : Q2R (Qred a) = Q2R a.
Proof. apply Qeq_eqR, Qred_correct. Qed.
Definition rmap {X Y} (f : X -> Y) (r : result X) : result Y := match r with Ok x => Ok (f x) | Err e => Err e end.
Lemma get_Q2R l i : get (map Q2R l) i = rmap Q2R (get l i).
Proof. unfold get. rewrite nth_error_map. destruct (nth_error l i); reflexivity. Qed.
Lemma getz_Q2R l i : getz (map Q2R l) i = rmap Q2R (getz l i).
Proof. unfold getz. rewrite map_length. destruct (0 <=? i)%Z; [apply get_Q2R|]. destruct (0 <=? _)%Z; [apply get_Q2R|reflexivity]. Qed.
Lemma loop_Q2R s n v fwd : forall fuel i, crossing_loop fuel (map Q2R s) i n (Q2R v) fwd = crossing_loop fuel s i n v fwd.
Proof.
  induction fuel as [|fuel IH]; intros i; [reflexivity|]. cbn [crossing_loop]. destruct ((0 <? i) && (i <? n))%Z; [|reflexivity]. rewrite !getz_Q2R. destruct (getz s i) as [a|]; [|reflexivity]. cbn [rmap bind].
  destruct (getz s (i - 1)) as [b|]; [|reflexivity]. cbn [rmap bind]. cbn [nlt NumR NumQ]. rewrite !Q2R_ltb. destruct (Bool.eqb _ _); [apply IH|reflexivity].
Qed.
Lemma div_Q2R a b : py_div (Q2R a) (Q2R b) = rmap Q2R (py_div a b).
Proof.
  unfold py_div. cbn [neq nofZ ndiv NumR NumQ]. rewrite Q2R_zero. destruct (Qeq_bool b (inject_Z 0)) eqn:E; [reflexivity|]. cbn [rmap]. f_equal. rewrite Q2R_red. symmetry. apply Q2R_div. apply Qeq_bool_neq in E. exact E.
Qed.
Lemma crossing_Q2R r s i v fwd n : crossing (map Q2R r) (map Q2R s) i (Q2R v) fwd n = rmap (fun p => (option_map Q2R (fst p), snd p)) (crossing r s i v fwd n).
Proof.
  unfold crossing. rewrite map_length. destruct (n =? 0)%Z; rewrite loop_Q2R; destruct (crossing_loop _ s _ _ _ _) as [j|]; try reflexivity; cbn [bind]; destruct ((j <? 1) || _)%Z; try reflexivity;
    rewrite !getz_Q2R; destruct (getz r (j - 1)) as [x1|]; try reflexivity; cbn [rmap bind]; destruct (getz r j) as [x2|]; try reflexivity; cbn [rmap bind];
    destruct (getz s (j - 1)) as [y1|]; try reflexivity; cbn [rmap bind]; destruct (getz s j) as [y2|]; try reflexivity; cbn [rmap bind]; cbn [nsub nadd nmul NumR NumQ];
    rewrite <- !Q2R_minus, <- (Q2R_red (x2 - x1)), <- (Q2R_red (y2 - y1)), div_Q2R; destruct (py_div _ _) as [q|]; try reflexivity; cbn [rmap bind fst snd option_map];
    rewrite Q2R_red, Q2R_plus, Q2R_red, Q2R_mult, Q2R_red; reflexivity.
Qed.
Definition reals (p : list (option Q) * list (option Q)) : list (option R) * list (option R) := (map (option_map Q2R) (fst p), map (option_map Q2R) (snd p)).
Lemma edges_Q2R t y rise half fall : edges (map Q2R t) (map Q2R y) (Q2R rise) (Q2R half) (Q2R fall) = rmap reals (edges t y rise half fall).
Proof.
  unfold edges. rewrite get_Q2R, map_length. destruct (get y 0) as [y0|]; [|reflexivity]. cbn [rmap bind nlt NumR NumQ]. rewrite Q2R_ltb.
  assert (ST : forall l s, foldM (edges_step (map Q2R t) (map Q2R y) (Q2R rise) (Q2R half) (Q2R fall) 0) (fst (fst s), map (option_map Q2R) (snd (fst s)), map (option_map Q2R) (snd s)) l
                = rmap (fun s => (fst (fst s), map (option_map Q2R) (snd (fst s)), map (option_map Q2R) (snd s))) (foldM (edges_step t y rise half fall 0) s l)).
  { induction l as [|i l IH]; intros [[low r] f]; [reflexivity|]. cbn [foldM fst snd].
    assert (E : edges_step (map Q2R t) (map Q2R y) (Q2R rise) (Q2R half) (Q2R fall) 0 (low, map (option_map Q2R) r, map (option_map Q2R) f) i
              = rmap (fun s => (fst (fst s), map (option_map Q2R) (snd (fst s)), map (option_map Q2R) (snd s))) (edges_step t y rise half fall 0 (low, r, f) i)).
    { unfold edges_step. rewrite get_Q2R. destruct (get y i) as [a|]; [|reflexivity]. cbn [rmap bind nlt NumR NumQ]. destruct low; rewrite Q2R_ltb; destruct (Qltb _ _); try reflexivity;
        rewrite crossing_Q2R; destruct (crossing t y _ _ _ _) as [c|]; try reflexivity; cbn [rmap bind fst snd]; rewrite map_app; reflexivity. }
    rewrite E. destruct (edges_step t y rise half fall 0 (low, r, f) i) as [s'|]; [|reflexivity]. cbn [rmap]. apply IH. }
  specialize (ST (range 1 (length y)) (Qltb y0 fall, [], [])). cbn [fst snd map] in ST. rewrite ST. destruct (foldM (edges_step t y rise half fall 0) _ _) as [[[a b] c]|]; reflexivity.
Qed.
