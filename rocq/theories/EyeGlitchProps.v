(** C73: one sample off between two equal bits is counted as two edges. *)
From Coq Require Import ZArith QArith Qreals Reals Bool List Lia Lra Sorted.
Import ListNotations.
From Verif Require Import Base Num RBool LinesSpec LinesModel LinesProps LinesRational StatsModel EyeRunModel EyeRunSpec EyeLevelsProps EyeDataSpec EyeEdgesSpec EyeEdgesProofs EyeEdgesProps EyeEdgesExample.
Local Open Scope R_scope.

(** The bits 0 1 1 0 with a sample of 3/10 where the two ones meet. *)
Definition glitch_y : list R := [0; 0; 0; 1 / 2; 1; 1; 1; 3 / 10; 1; 1; 1; 1 / 2; 0; 0; 0].
Theorem C73_glitch_refuted l : l_rising l = 6 / 10 -> l_half l = 1 / 2 -> l_falling l = 4 / 10 ->
  let w := (map (fun j => 0 + INR j * 1) (seq 0 15), glitch_y) in
  transitions BOTH slow_signal 0 3 [1; 3]%Z /\ spans 4 1 1 0 glitch_y slow_signal 0 3
  /\ (forall j n v, nth_error glitch_y j = Some v -> Rabs (0 + INR j * 1 - middle 4 slow_signal n) <= 1 -> beyond (l_rising l) (l_falling l) (snd slow_signal n) v)
  /\ (forall j, (j <> 7)%nat -> nth_error glitch_y j = nth_error slow_y j)
  /\ exists a b c d, selected_edges l BOTH w = Ok [a; b; c; d].
Proof.
  intros L1 L2 L3 w. destruct (C73_edges_met l L1 L2 L3) as (TB & _ & _ & (f & FE & CL & SP & _) & _).
  assert (F0 : f = 0). { cbn in FE. injection FE as FE _. lra. } subst f. cbn [snd] in CL, SP.
  split; [exact TB|]. split; [destruct SP as (_ & S2); split; [discriminate|exact S2]|].
  assert (SAME : forall j, (j <> 7)%nat -> nth_error glitch_y j = nth_error slow_y j) by (intros j N; do 15 (destruct j as [|j]; [first [reflexivity|lia]|]); reflexivity).
  split; [|split; [exact SAME|]].
  - intros j n v E N. destruct (Nat.eq_dec j 7) as [->|J]; [|rewrite (SAME j J) in E; exact (proj1 CL j n v E N)].
    exfalso. apply Rabs_between in N. unfold middle, slow_signal in N. cbn [fst] in N. rewrite INR_IZR_INZ in N. cbn [Z.of_nat Pos.of_succ_nat Pos.succ] in N.
    assert (G : (5 <= 4 * n)%Z /\ (4 * n <= 7)%Z) by (split; apply le_IZR; rewrite mult_IZR; lra). lia.
  - unfold selected_edges, w. cbn [fst snd]. rewrite C09_edges_np_same by reflexivity.
    assert (YQ : glitch_y = map Q2R [0; 0; 0; 1 # 2; 1; 1; 1; 3 # 10; 1; 1; 1; 1 # 2; 0; 0; 0]%Q) by (unfold glitch_y; cbn [map]; repeat (apply f_equal2; [unfold Q2R; cbn; lra|]); reflexivity).
    assert (TQ : map (fun j => 0 + INR j * 1) (seq 0 15) = map Q2R (map inject_Z [0; 1; 2; 3; 4; 5; 6; 7; 8; 9; 10; 11; 12; 13; 14]%Z)) by (cbn [seq map]; repeat (apply f_equal2; [unfold Q2R, inject_Z; rewrite INR_IZR_INZ; cbn; lra|]); reflexivity).
    replace (l_rising l) with (Q2R (6 # 10)) by (rewrite L1; unfold Q2R; cbn; lra). replace (l_half l) with (Q2R (1 # 2)) by (rewrite L2; unfold Q2R; cbn; lra). replace (l_falling l) with (Q2R (4 # 10)) by (rewrite L3; unfold Q2R; cbn; lra).
    rewrite YQ, TQ, edges_Q2R. match goal with |- context [rmap reals ?x] => let v := eval vm_compute in x in replace x with v by (vm_compute; reflexivity) end.
    cbn [rmap reals fst snd map option_map bind finite_edges mapM filter_edge_polarity app].
    match goal with |- context [sorted ?k] => pose proof (Permutation.Permutation_length (proj2 (EyeRProofs.sorted_R k))) as PL; destruct (sorted k) as [|a [|b [|c [|d [|]]]]]; try discriminate PL end.
    exists a, b, c, d. reflexivity.
Qed.
Print Assumptions C73_glitch_refuted.
