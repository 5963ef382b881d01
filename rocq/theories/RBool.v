(** Reflection lemmas for the boolean comparisons of the real instance. *)
From Coq Require Import Reals Bool Lra List.
From Verif Require Import Base Num.
Local Open Scope R_scope.

Lemma Rltb_true x y : Rltb x y = true <-> x < y.
Proof. unfold Rltb; destruct (Rlt_dec x y); split; try tauto; try discriminate. Qed.
Lemma Rltb_false x y : Rltb x y = false <-> y <= x.
Proof. unfold Rltb; destruct (Rlt_dec x y); split; intros; try discriminate; try lra; reflexivity. Qed.
Lemma Rleb_true x y : Rleb x y = true <-> x <= y.
Proof. unfold Rleb; destruct (Rle_dec x y); split; try tauto; try discriminate. Qed.
Lemma Rleb_false x y : Rleb x y = false <-> y < x.
Proof. unfold Rleb; destruct (Rle_dec x y); split; intros; try discriminate; try lra; reflexivity. Qed.
Lemma Reqb_true x y : Reqb x y = true <-> x = y.
Proof. unfold Reqb; destruct (Req_EM_T x y); split; try tauto; try discriminate. Qed.
Lemma Reqb_false x y : Reqb x y = false <-> x <> y.
Proof. unfold Reqb; destruct (Req_EM_T x y); split; try tauto; try discriminate. Qed.

(** Case analysis on a boolean comparison, keeping the real fact. *)
Ltac rcase x y :=
  let H := fresh "Hc" in
  first
  [ destruct (Rltb x y) eqn:H; [apply Rltb_true in H | apply Rltb_false in H] ].

Lemma py_div_R (x y : R) : y <> 0 -> py_div x y = Ok (x / y).
Proof. intros H. unfold py_div. cbn. rewrite (proj2 (Reqb_false y 0) H). reflexivity. Qed.

Lemma fold_min_R (l : list R) : forall x, 
  let m := List.fold_left (fun m y => if Rltb y m then y else m) l x in
  m <= x /\ (forall y, List.In y l -> m <= y) /\ (m = x \/ List.In m l).
Proof.
  induction l as [|a l IH]; intros x; cbn [List.fold_left]; cbv zeta.
  - split; [lra|]. split; [intros y []|left; reflexivity].
  - destruct (IH (if Rltb a x then a else x)) as (H1 & H2 & H3).
    destruct (Rltb a x) eqn:E; [apply Rltb_true in E | apply Rltb_false in E].
    + split; [lra|]. split.
      * intros y [->|Hy]; [lra|auto].
      * destruct H3 as [H3|H3]; [right; left; auto|right; right; exact H3].
    + split; [lra|]. split.
      * intros y [->|Hy]; [lra|auto].
      * destruct H3 as [H3|H3]; [left; exact H3|right; right; exact H3].
Qed.

Lemma fold_max_R (l : list R) : forall x, 
  let m := List.fold_left (fun m y => if Rltb m y then y else m) l x in
  x <= m /\ (forall y, List.In y l -> y <= m) /\ (m = x \/ List.In m l).
Proof.
  induction l as [|a l IH]; intros x; cbn [List.fold_left]; cbv zeta.
  - split; [lra|]. split; [intros y []|left; reflexivity].
  - destruct (IH (if Rltb x a then a else x)) as (H1 & H2 & H3).
    destruct (Rltb x a) eqn:E; [apply Rltb_true in E | apply Rltb_false in E].
    + split; [lra|]. split.
      * intros y [->|Hy]; [lra|auto].
      * destruct H3 as [H3|H3]; [right; left; auto|right; right; exact H3].
    + split; [lra|]. split.
      * intros y [->|Hy]; [lra|auto].
      * destruct H3 as [H3|H3]; [left; exact H3|right; right; exact H3].
Qed.

Lemma py_min_R (l : list R) : l <> nil ->
  exists m, py_min l = Ok m /\ List.In m l /\ forall y, List.In y l -> m <= y.
Proof.
  destruct l as [|x l]; [congruence|]. intros _.
  exists (List.fold_left (fun m y => if Rltb y m then y else m) l x).
  split; [reflexivity|]. destruct (fold_min_R l x) as (H1 & H2 & H3). split.
  - destruct H3 as [H3|H3]; [left; symmetry; exact H3|right; exact H3].
  - intros y [<-|Hy]; auto.
Qed.

Lemma py_max_R (l : list R) : l <> nil ->
  exists m, py_max l = Ok m /\ List.In m l /\ forall y, List.In y l -> y <= m.
Proof.
  destruct l as [|x l]; [congruence|]. intros _.
  exists (List.fold_left (fun m y => if Rltb m y then y else m) l x).
  split; [reflexivity|]. destruct (fold_max_R l x) as (H1 & H2 & H3). split.
  - destruct H3 as [H3|H3]; [left; symmetry; exact H3|right; exact H3].
  - intros y [<-|Hy]; auto.
Qed.
