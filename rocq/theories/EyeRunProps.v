(** C46: the life of an eye diagram object. *)
From Coq Require Import ZArith Reals Bool List Lia Lra.
Import ListNotations.
From Verif Require Import Base Num RBool LinesModel StatsModel MaskModel EyeModel EyeSpec Pam2Model MathModel EyeImageModel EyeRunModel EyeRunSpec EyeRunProofs EyeRunPeriod.
From Verif Require CdrModel.
Local Open Scope R_scope.

(** ** Construction *)
(** What the constructor stores for an array given as one or as several
    waveforms. *)
Definition stored (a b : ndarray) : Prop :=
  match shape a with
  | [r; c] => shape b = [1%nat; r; c] /\ forall k j, at_ b [0%nat; k; j] = at_ a [k; j]
  | _ => b = a
  end.
Lemma as_3d_spec a b : as_3d a = Ok b <-> ((length (shape a) = 2 \/ length (shape a) = 3)%nat /\ b = match shape a with [_; _] => NdArray (1%nat :: shape a) (fun i => at_ a (tl i)) | _ => a end).
Proof.
  unfold as_3d. destruct (shape a) as [|x [|y [|z [|u l]]]] eqn:S; cbn [length]; (split; [intros E; first [discriminate E | injection E as <-; split; [lia|reflexivity]] | intros ([L|L] & ->); first [discriminate L | reflexivity]]).
Qed.
Lemma as_3d_stored a b : as_3d a = Ok b -> stored a b.
Proof. intros E. apply as_3d_spec in E. destruct E as (L & ->). unfold stored. destruct (shape a) as [|x [|y [|z l]]]; cbn [length] in L; try lia; try reflexivity. split; reflexivity. Qed.
Lemma as_3d_shape a b n p : as_3d a = Ok b -> shape b = [n; 2; p]%nat <-> array_of n p a.
Proof.
  intros E. apply as_3d_spec in E. destruct E as (L & ->). unfold array_of. destruct (shape a) as [|x [|y [|z l]]] eqn:S; cbn [length] in L; try lia.
  - cbn [shape]. split; [intros Q; injection Q as <- -> ->; right; split; reflexivity|intros [Q|(-> & Q)]; [discriminate|rewrite Q; reflexivity]].
  - rewrite S. split; [intros Q; left; exact Q|intros [Q|(_ & Q)]; [exact Q|discriminate]].
Qed.
Lemma as_3d_array n p a : array_of n p a -> exists b, as_3d a = Ok b /\ shape b = [n; 2; p]%nat.
Proof.
  intros A. assert (E : exists b, as_3d a = Ok b). { destruct A as [A|(_ & A)]; unfold as_3d; rewrite A; cbn [length]; eexists; reflexivity. } destruct E as (b & E). exists b. split; [exact E|]. apply (as_3d_shape a b n p E). exact A.
Qed.
Lemma as_3d_err a x : as_3d a = Err x -> x = ValueError.
Proof. unfold as_3d. destruct (length (shape a)) as [|[|[|[|k]]]]; intros E; congruence. Qed.
(** The accepted arguments: [n] waveforms of [p] points, each with times and
    values, not more waveforms than points, clocks of the same shape, one list of
    clock edges per waveform, a resolution of at least zero. *)
Definition acceptable (waveforms : ndarray) (clocks : option ndarray) (clock_edges : option edges_arg) (resolution : Z) (cfg : option (option config)) (n p : nat) : Prop :=
  array_of n p waveforms /\ (1 <= n <= p)%nat /\ (2 <= p)%nat
  /\ match clocks with Some c => array_of n p c | None => True end
  /\ match clock_edges with
     | None => True
     | Some NotAList => False
     | Some (ListOf l) => length l = n /\ exists edges, nth_error l 0 = Some (true, edges)
     end
  /\ (0 <= resolution)%Z /\ cfg <> Some None.
(** A fresh object holding what was given. *)
Definition fresh (waveforms : ndarray) (clocks : option ndarray) (clock_edges : option edges_arg) (m : option (mask R)) (resolution : Z) (cfg : option (option config)) (e : eye) : Prop :=
  stored waveforms (e_waveforms e)
  /\ match clocks with Some c => exists c', e_clocks e = Some c' /\ stored c c' | None => e_clocks e = None end
  /\ e_clock_edges e = match clock_edges with Some (ListOf l) => Some (map snd l) | _ => None end
  /\ e_mask e = m /\ e_resolution e = resolution
  /\ e_config e = (match cfg with Some (Some c) => c | _ => default_config end)
  /\ e_calculated e = false /\ e_edge_dir e = None /\ e_ties e = None
  /\ exists p, dim (e_waveforms e) 2 = S p /\ e_t_delta e = (at_ (e_waveforms e) [0%nat; 0%nat; p] - at_ (e_waveforms e) [0%nat; 0%nat; 0%nat]) / INR p.
Theorem C46_construct waveforms clocks clock_edges m resolution cfg :
  ((exists n p, acceptable waveforms clocks clock_edges resolution cfg n p) -> exists e, construct waveforms clocks clock_edges m resolution cfg = Ok e)
  /\ (forall e, construct waveforms clocks clock_edges m resolution cfg = Ok e ->
       (exists n p, acceptable waveforms clocks clock_edges resolution cfg n p /\ shape (e_waveforms e) = [n; 2; p]%nat) /\ fresh waveforms clocks clock_edges m resolution cfg e)
  /\ (forall x, construct waveforms clocks clock_edges m resolution cfg = Err x ->
       x = ValueError \/ exists n p, array_of n p waveforms /\ (n = O \/ p = 1%nat)).
Proof.
  split; [|split].
  - intros (n & p & A & N & P & C & E & RS & CF). unfold construct. destruct (as_3d_array n p _ A) as (w & -> & S). cbn [bind]. assert (D0 : dim w 0 = n) by (unfold dim; rewrite S; reflexivity). assert (D1 : dim w 1 = 2%nat) by (unfold dim; rewrite S; reflexivity). assert (D2 : dim w 2 = p) by (unfold dim; rewrite S; reflexivity).
    rewrite D0, D1, D2. cbn [Nat.eqb negb orb]. destruct (Nat.ltb_spec p n) as [Q|_]; [lia|].
    assert (CC : exists c, match clocks with None => Ok None | Some c => bind (as_3d c) (fun c => if list_eq_dec Nat.eq_dec (shape c) (shape w) then Ok (Some c) else Err ValueError) end = Ok c).
    { destruct clocks as [c|]; [|eexists; reflexivity]. destruct (as_3d_array n p _ C) as (c' & -> & S'). cbn [bind]. rewrite S, S'. destruct (list_eq_dec _ _ _) as [|Q]; [eexists; reflexivity|congruence]. }
    destruct CC as (c & CC). rewrite CC. cbn [bind].
    assert (EE : exists ed, match clock_edges with None => Ok None | Some NotAList => Err ValueError | Some (ListOf l) => if negb (length l =? n)%nat then Err ValueError else bind (get l 0) (fun first => if negb (fst first) then Err ValueError else Ok (Some (map snd l))) end = Ok ed).
    { destruct clock_edges as [[|l]|]; [destruct E| |eexists; reflexivity]. destruct E as (L & edges & H). rewrite L, Nat.eqb_refl. cbn [negb]. unfold get. rewrite H. cbn. eexists. reflexivity. }
    destruct EE as (ed & EE). rewrite EE. cbn [bind]. destruct (Z.ltb_spec resolution 0); [lia|]. destruct (Nat.eqb_spec n 0); [lia|]. destruct (Nat.eqb_spec p 1); [lia|]. destruct cfg as [[cf|]|]; [eexists; reflexivity|congruence|eexists; reflexivity].
  - intros e E. unfold construct in E. destruct (as_3d waveforms) as [w|] eqn:W; [|discriminate]. cbn [bind] in E. destruct (negb (dim w 1 =? 2)%nat) eqn:D1; [discriminate|]. destruct (Nat.ltb_spec (dim w 2) (dim w 0)) as [|LE]; [discriminate|]. cbn [orb] in E.
    apply negb_false_iff, Nat.eqb_eq in D1.
    assert (S3 : shape w = [dim w 0; 2; dim w 2]%nat). { pose proof W as W'. apply as_3d_spec in W'. destruct W' as (L & B). assert (K : shape w = [dim w 0; dim w 1; dim w 2]); [|rewrite D1 in K; exact K]. clear D1 LE E. unfold dim. destruct (shape waveforms) as [|x [|y [|z [|u l]]]] eqn:S; cbn [length] in L; try lia; subst w; cbn [shape]; rewrite ?S; reflexivity. }
    destruct (match clocks with None => _ | Some c => _ end) as [ck|] eqn:CK; [|discriminate]. cbn [bind] in E. destruct (match clock_edges with None => _ | Some ce => _ end) as [ed|] eqn:ED; [|discriminate]. cbn [bind] in E.
    destruct (Z.ltb_spec resolution 0); [discriminate|]. destruct (Nat.eqb_spec (dim w 0) 0); [discriminate|]. destruct (Nat.eqb_spec (dim w 2) 1); [discriminate|]. destruct (match cfg with None => _ | Some cf => _ end) as [cf|] eqn:CF; [|discriminate]. cbn [bind] in E. injection E as <-. cbn [e_waveforms]. split.
    + exists (dim w 0), (dim w 2). split; [|exact S3]. split; [apply (as_3d_shape _ w _ _ W); exact S3|]. split; [lia|]. split; [lia|]. split; [|split; [|split; [exact H|]]].
      * destruct clocks as [c|]; [|exact I]. destruct (as_3d c) as [c'|] eqn:C'; [|discriminate]. cbn [bind] in CK. destruct (list_eq_dec _ _ _) as [Q|]; [|discriminate]. apply (as_3d_shape _ c' _ _ C'). congruence.
      * destruct clock_edges as [[|l]|]; [discriminate| |exact I]. destruct (Nat.eqb_spec (length l) (dim w 0)) as [L|]; [|discriminate]. cbn [negb] in ED. split; [exact L|]. unfold get in ED. destruct (nth_error l 0) as [[b x]|] eqn:G; [|discriminate]. cbn [bind fst] in ED. destruct b; [|discriminate]. exists x. reflexivity.
      * intros ->. discriminate.
    + unfold fresh. cbn [e_waveforms e_clocks e_clock_edges e_mask e_resolution e_config e_calculated e_edge_dir e_ties e_t_delta]. split; [exact (as_3d_stored _ _ W)|]. split; [|split; [|repeat (split; [try reflexivity|])]].
      * destruct clocks as [c|]; [|injection CK as <-; reflexivity]. destruct (as_3d c) as [c'|] eqn:C'; [|discriminate]. cbn [bind] in CK. destruct (list_eq_dec _ _ _) as [Q|]; [|discriminate]. injection CK as <-. exists c'. split; [reflexivity|]. exact (as_3d_stored _ _ C').
      * destruct clock_edges as [[|l]|]; [discriminate| |injection ED as <-; reflexivity]. destruct (negb _); [discriminate|]. destruct (get l 0) as [f|]; [|discriminate]. cbn [bind] in ED. destruct (negb (fst f)); [discriminate|]. injection ED as <-. reflexivity.
      * destruct cfg as [[c|]|]; [injection CF as <-; reflexivity|discriminate|injection CF as <-; reflexivity].
      * destruct (dim w 2) as [|p] eqn:DP; [lia|]. exists p. cbn [Nat.sub]. rewrite Nat.sub_0_r. split; reflexivity.
  - intros x E. unfold construct in E. destruct (as_3d waveforms) as [w|y] eqn:W; [|injection E as <-; left; exact (as_3d_err _ _ W)]. cbn [bind] in E. destruct (negb (dim w 1 =? 2)%nat) eqn:D1; [injection E as <-; left; reflexivity|]. destruct (Nat.ltb_spec (dim w 2) (dim w 0)) as [|LE]; [injection E as <-; left; reflexivity|]. cbn [orb] in E.
    apply negb_false_iff, Nat.eqb_eq in D1.
    assert (S3 : shape w = [dim w 0; 2; dim w 2]%nat). { pose proof W as W'. apply as_3d_spec in W'. destruct W' as (L & B). assert (K : shape w = [dim w 0; dim w 1; dim w 2]); [|rewrite D1 in K; exact K]. clear D1 LE E. unfold dim. destruct (shape waveforms) as [|x0 [|y [|z [|u l]]]] eqn:S; cbn [length] in L; try lia; subst w; cbn [shape]; rewrite ?S; reflexivity. }
    pose proof (proj1 (as_3d_shape _ w _ _ W) S3) as AR. destruct (Nat.eqb_spec (dim w 0) 0) as [N0|N0]; [right; exists (dim w 0), (dim w 2); split; [exact AR|left; exact N0]|]. destruct (Nat.eqb_spec (dim w 2) 1) as [P1|P1]; [right; exists (dim w 0), (dim w 2); split; [exact AR|right; exact P1]|]. left.
    destruct (match clocks with None => _ | Some c => _ end) as [ck|y] eqn:CK; cbn [bind] in E.
    2:{ injection E as <-. destruct clocks as [c|]; [|discriminate]. destruct (as_3d c) as [c'|z] eqn:C'; cbn [bind] in CK; [|injection CK as <-; exact (as_3d_err _ _ C')]. destruct (list_eq_dec _ _ _); [discriminate|injection CK as <-; reflexivity]. }
    destruct (match clock_edges with None => _ | Some ce => _ end) as [ed|y] eqn:ED; cbn [bind] in E.
    2:{ injection E as <-. destruct clock_edges as [[|l]|]; [injection ED as <-; reflexivity| |discriminate]. destruct (Nat.eqb_spec (length l) (dim w 0)) as [L|]; cbn [negb] in ED; [|injection ED as <-; reflexivity]. destruct l as [|f l]; [cbn in L; lia|]. cbn [get nth_error bind] in ED. destruct (negb (fst f)); [injection ED as <-; reflexivity|discriminate]. }
    destruct (resolution <? 0)%Z; [injection E as <-; reflexivity|]. destruct cfg as [[c|]|]; cbn [bind] in E; [discriminate|injection E as <-; reflexivity|discriminate].
Qed.
Print Assumptions C46_construct.
Lemma construct_alive w ck ce mk res cfg e : construct w ck ce mk res cfg = Ok e -> alive (dim (e_waveforms e) 0) e.
Proof.
  intros C. destruct (C46_construct w ck ce mk res cfg) as (_ & Q & _). destruct (Q e C) as ((n & p & (A & N & P & CK & CE & RS & CF) & S) & (F1 & F2 & F3 & F4 & F5 & F6 & F7 & F8 & F9 & F10)). assert (D : dim (e_waveforms e) 0 = n) by (unfold dim; rewrite S; reflexivity). rewrite D. constructor; [exact D|lia| | |rewrite F7; discriminate].
  - intros c EC. destruct ck as [c0|]; [|congruence]. destruct F2 as (c' & E' & ST). rewrite EC in E'. injection E' as <-. unfold dim. unfold stored in ST. destruct CK as [CK|(-> & CK)]; rewrite CK in ST; [subst c; rewrite CK; reflexivity|destruct ST as (ST & _); rewrite ST; reflexivity].
  - intros l EL. rewrite F3 in EL. destruct ce as [[|l0]|]; try discriminate. injection EL as <-. rewrite map_length. destruct CE as (L & _). lia.
Qed.

Lemma construct_converted w ck ce mk res cfg e : construct w ck ce mk res cfg = Ok e -> e_converted e = None.
Proof.
  unfold construct. destruct (as_3d w) as [w3|]; [|discriminate]. cbn [bind]. destruct (negb _ || _); [discriminate|]. destruct (match ck with None => _ | Some _ => _ end) as [c1|]; [|discriminate]. cbn [bind]. destruct (match ce with None => _ | Some _ => _ end) as [c2|]; [|discriminate]. cbn [bind].
  destruct (res <? 0)%Z; [discriminate|]. destruct (_ =? 0)%nat; [discriminate|]. destruct (_ =? 1)%nat; [discriminate|]. destruct (match cfg with None => _ | Some _ => _ end) as [cf|]; [|discriminate]. cbn [bind]. intros E. injection E as <-. reflexivity.
Qed.

Section Run.
Variable round6 : R -> R.
Variable fit : nat -> list R -> result (list (R * R * R)).
Variable aic : list (R * R * R) -> list R -> R.
Variable new_cdr : R -> cdr.
Variable percentile : list R -> R -> R.
Variable cast : R -> Z.
Variable fuel : nat.
Variable draw : drawing.
Notation find_levels := (find_levels round6 fit aic).
Notation calculate := (calculate round6 fit aic new_cdr percentile cast fuel draw).
Notation perform := (perform round6 fit aic new_cdr percentile cast fuel draw).
Notation performs := (performs round6 fit aic new_cdr percentile cast fuel draw).
Notation results := (results percentile cast fuel draw).
Notation clock := (clock new_cdr).

(** ** Histories *)
(** Before a calculate returned every getter raises; from then on measures, heat
    map and one list of clock edges per waveform are there, whatever failed or was
    reconfigured before or after. *)
Theorem C46_history w ck ce mk res cfg e0 cs rs e :
  construct w ck ce mk res cfg = Ok e0 -> performs cs e0 = (rs, e) ->
  length rs = length cs
  /\ (~ Exists succeeded rs -> get_measures e = Err RuntimeError /\ get_raw_heatmap e = Err RuntimeError /\ get_clock_edges e = Err RuntimeError /\ forall b, bit_stream e b = Err RuntimeError)
  /\ (Exists succeeded rs -> (exists m, get_measures e = Ok (Some m)) /\ (exists h, get_raw_heatmap e = Ok h)
       /\ (exists edges, get_clock_edges e = Ok (Some edges) /\ length edges = length (waves (e_waveforms e0)))).
Proof.
  intros C P. pose proof (construct_alive _ _ _ _ _ _ _ C) as AL. destruct (alive_performs round6 fit aic new_cdr percentile cast fuel draw _ cs e0 rs e AL P) as (AL' & CA & _ & L). split; [exact L|].
  assert (F : e_calculated e0 = false) by (apply (proj1 (proj2 (C46_construct w ck ce mk res cfg)) e0 C)). rewrite F in CA. split.
  - intros N. assert (Q : e_calculated e = false) by (destruct (e_calculated e); [destruct (proj1 CA eq_refl) as [X|X]; [discriminate|destruct (N X)]|reflexivity]). unfold get_measures, get_raw_heatmap, get_clock_edges, bit_stream, get_bit_stream. rewrite Q. repeat split.
  - intros X. assert (Q : e_calculated e = true) by (apply CA; right; exact X). destruct (al_done _ _ AL' Q) as (m & l & M & CE & LN). unfold get_measures, get_raw_heatmap, get_clock_edges. rewrite Q, M, CE. split; [exists m; reflexivity|]. split; [eexists; reflexivity|]. exists l. split; [reflexivity|]. unfold waves. rewrite map_length, seq_length. exact LN.
Qed.
Lemma performs_configures fs e : exists c, snd (performs (map Configure fs) e) = set_config c e /\ fst (performs (map Configure fs) e) = map (fun _ => Ok None) fs.
Proof.
  revert e. induction fs as [|f fs IH]; intros e; cbn [map EyeRunModel.performs]; [exists (e_config e); destruct e; split; reflexivity|]. cbn [EyeRunModel.perform]. destruct (IH (set_config (f (e_config e)) e)) as (c & E & Q). exists c. destruct (performs (map Configure fs) _) as [rs e2]. cbn [fst snd] in * . subst rs. split; [rewrite E; reflexivity|reflexivity].
Qed.
(** The measures are those the last calculate returned. *)
Theorem C46_last e0 cs d fs rs e m :
  performs (cs ++ Calculate d :: map Configure fs) e0 = (rs, e) -> nth_error rs (length cs) = Some (Ok (Some m)) -> get_measures e = Ok (Some m).
Proof.
  rewrite performs_app. destruct (performs cs e0) as [rs1 e1] eqn:P1. cbn [EyeRunModel.performs EyeRunModel.perform]. destruct (calculate d e1) as [r e2] eqn:C. destruct (performs_configures fs e2) as (c & E & Q). destruct (performs (map Configure fs) e2) as [rs2 e3]. cbn [fst snd] in E, Q. intros H N. injection H as <- <-.
  assert (L : length rs1 = length cs). { clear -P1. revert e0 rs1 e1 P1. induction cs as [|c cs IH]; intros e0 rs e P; cbn [EyeRunModel.performs] in P; [injection P as <- <-; reflexivity|]. destruct (perform c e0) as [r e']. destruct (performs cs e') as [rs' e''] eqn:Q. injection P as <- <-. cbn. f_equal. exact (IH _ _ _ Q). }
  rewrite nth_error_app2 in N by lia. rewrite L, Nat.sub_diag in N. cbn in N. injection N as N. destruct r as [m'|x]; [|discriminate]. cbn in N. injection N as ->. destruct (calculate_inv _ _ _ _ _ _ _ _ d e1 m e2 C) as (l & edges & t & h & dirs & im & _ & _ & _ & _ & _ & M & _ & _ & _ & _ & _ & CA & _). rewrite E. unfold get_measures. cbn [e_calculated e_measures set_config]. rewrite CA, M. reflexivity.
Qed.

(** ** Repeating and reusing *)
Lemma levels_debug c y d l : find_levels c y d = Ok l -> exists l', find_levels c y false = Ok l' /\ l_zero l' = l_zero l /\ l_ua l' = l_ua l /\ l_half l' = l_half l.
Proof.
  intros E. destruct d; [|exists l; split; [exact E|repeat split]]. destruct (c_y_0 c) as [v0|] eqn:Y0; [destruct (c_y_1 c) as [v1|] eqn:Y1|]; [|exists l; unfold EyeRunModel.find_levels in * ; rewrite Y0, Y1 in * ; split; [exact E|repeat split]|exists l; unfold EyeRunModel.find_levels in * ; rewrite Y0 in * ; split; [exact E|repeat split]].
  unfold EyeRunModel.find_levels in * . rewrite Y0, Y1 in * . destruct (runner_levels _ _ _ _ _) as [[a b]|]; [|discriminate]. cbn [bind] in * . injection E as <-. eexists. split; [reflexivity|]. cbn. repeat split.
Qed.
Lemma results_levels w mk res td c l l' edges t pr : l_zero l' = l_zero l -> l_ua l' = l_ua l -> l_half l' = l_half l -> results w mk res td c l' edges t pr = results w mk res td c l edges t pr.
Proof. intros Z U H. unfold EyeRunProofs.results, measured. rewrite Z, U, H. reflexivity. Qed.
(** A second calculate of the same object gives the same results. *)
Theorem C46_repeat e d m e1 : calculate d e = (Ok m, e1) ->
  exists e2, calculate false e1 = (Ok m, e2) /\ get_measures e2 = get_measures e1 /\ get_raw_heatmap e2 = get_raw_heatmap e1 /\ get_images e2 = get_images e1 /\ get_clock_edges e2 = get_clock_edges e1 /\ forall b, bit_stream e2 b = bit_stream e1 b.
Proof.
  intros C. destruct (calculate_inv _ _ _ _ _ _ _ _ d e m e1 C) as (l & edges & t & h & dirs & im & FL & CK & SP & PL & RS & M & H & IM & D & CE & (I1 & I2 & I3 & I4 & I5) & CA & CF).
  destruct (levels_debug _ _ _ _ FL) as (l' & FL' & Z & U & HF). pose proof (levels_cfg round6 fit aic (e_config e) (e_config e1) (all_samples (e_waveforms e)) false CF) as LC.
  destruct (calculate_eq round6 fit aic new_cdr percentile cast fuel draw false e1 l' edges t m h dirs im (e_masked e1)) as (e2 & C2 & M2 & H2 & IM2 & D2 & CE2 & CA2); [rewrite I1, LC; exact FL'|unfold EyeRunProofs.clock; rewrite CE; reflexivity|exact SP|intros X; discriminate X| |].
  - rewrite I1, I3, I4, I5. rewrite (results_cfg percentile cast fuel draw _ _ _ _ _ _ l' edges t _ CF). rewrite (results_levels _ _ _ _ _ l l') by assumption. eapply results_again. exact RS.
  - exists e2. split; [exact C2|]. unfold get_measures, get_raw_heatmap, get_images, get_clock_edges, bit_stream. rewrite CA, CA2, M, M2, H, H2, IM, IM2, CE, CE2. repeat (split; [reflexivity|]). intros b. f_equal. rewrite D2, D. destruct dirs; reflexivity.
Qed.
(** A new object given the clock edges of a finished one reaches the same
    results without clocks or recovery. *)
Theorem C46_reuse w ck ce mk res cfg e0 cs rs e d m e1 :
  construct w ck ce mk res cfg = Ok e0 -> performs cs e0 = (rs, e) -> calculate d e = (Ok m, e1) ->
  exists edges, get_clock_edges e1 = Ok (Some edges) /\ exists e0' e2,
    construct w None (Some (ListOf (map (fun l => (true, l)) edges))) mk res (Some (Some (e_config e))) = Ok e0'
    /\ calculate false e0' = (Ok m, e2) /\ get_raw_heatmap e2 = get_raw_heatmap e1 /\ get_images e2 = get_images e1 /\ get_clock_edges e2 = get_clock_edges e1
    /\ (c_skip_measures (e_config e) = false -> forall b, bit_stream e2 b = bit_stream e1 b).
Proof.
  intros C0 P C. pose proof (construct_alive _ _ _ _ _ _ _ C0) as AL. destruct (alive_performs round6 fit aic new_cdr percentile cast fuel draw _ cs e0 rs e AL P) as (AL' & _). destruct (alive_calculate _ _ _ _ _ _ _ _ _ d e (Ok m) e1 AL' C) as (AL1 & _).
  destruct (calculate_inv _ _ _ _ _ _ _ _ d e m e1 C) as (l & edges & t & h & dirs & im & FL & CK & SP & PL & RS & M & H & IM & D & CE & (I1 & I2 & I3 & I4 & I5) & CA & CF). exists edges. split; [unfold get_clock_edges; rewrite CA, CE; reflexivity|].
  destruct (al_done _ _ AL1 CA) as (m' & l1 & _ & CE1 & LN). rewrite CE in CE1. injection CE1 as <-.
  destruct (C46_construct w ck ce mk res cfg) as (_ & Q0 & _). destruct (Q0 e0 C0) as ((n & p & (A & N & PP & _ & _ & RSP & _) & S0) & (F1 & _ & _ & F4 & F5 & _ & _ & _ & _ & F10)).
  assert (SI : same_input e0 e). { clear -P. revert e0 rs e P. induction cs as [|c cs IH]; intros e0 rs e P; cbn [EyeRunModel.performs] in P; [injection P as <- <-; repeat split|]. destruct (perform c e0) as [r e'] eqn:PC. destruct (performs cs e') as [rs' e''] eqn:Q. injection P as <- <-. specialize (IH _ _ _ Q). destruct IH as (B1 & B2 & B3 & B4 & B5).
    assert (SC : same_input e0 e'). { destruct c as [d|f]; cbn [EyeRunModel.perform] in PC; [|injection PC as <- <-; repeat split]. destruct (calculate d e0) as [q e2] eqn:C. injection PC as <- <-. rewrite calculate_steps in C. destruct (steps_clock round6 fit aic new_cdr percentile cast fuel draw d e0) as (SI & _). destruct (steps _ _ _ _ _ _ _ _ d e0) as [[u|x] e3]; [destruct (e_measures e3); injection C as <- <-; exact SI|injection C as <- <-; exact SI]. }
    destruct SC as (A1 & A2 & A3 & A4 & A5). repeat split; congruence. }
  destruct SI as (J1 & J2 & J3 & J4 & J5).
  assert (NE : n = dim (e_waveforms e0) 0) by (unfold dim; rewrite S0; reflexivity).
  destruct (C46_construct w None (Some (ListOf (map (fun l => (true, l)) edges))) mk res (Some (Some (e_config e)))) as (K & K' & _).
  destruct K as (e0' & K). { exists n, p. split; [exact A|]. split; [exact N|]. split; [exact PP|]. split; [exact Logic.I|]. split; [|split; [exact RSP|discriminate]]. rewrite map_length, NE. split; [exact LN|]. destruct edges as [|x edges]; [cbn in LN; lia|]. exists x. reflexivity. }
  destruct (K' e0' K) as (_ & (G1 & _ & G3 & G4 & G5 & G6 & _ & G8 & _ & G10)). cbn in G3, G6. rewrite map_map in G3. cbn in G3. rewrite map_id in G3.
  assert (W : e_waveforms e0' = e_waveforms e0). { clear -C0 K. unfold construct in C0, K. destruct (as_3d w) as [w3|]; [|discriminate]. cbn [bind] in C0, K. destruct (negb _ || _); [discriminate|]. destruct (match ck with None => _ | Some _ => _ end) as [c1|]; [|discriminate]. destruct (match ce with None => _ | Some _ => _ end) as [c2|]; [|discriminate]. cbn [bind] in C0. destruct (negb _); [discriminate|]. destruct (get _ 0) as [f|]; [|discriminate]. cbn [bind] in K. destruct (negb (fst f)); [discriminate|]. cbn [bind] in K.
    destruct (res <? 0)%Z; [discriminate|]. destruct (_ =? 0)%nat; [discriminate|]. destruct (_ =? 1)%nat; [discriminate|]. destruct (match cfg with None => _ | Some _ => _ end) as [cf|]; [|discriminate]. cbn [bind] in C0, K. injection C0 as <-. injection K as <-. reflexivity. }
  destruct F10 as (q & Q1 & Q2). destruct G10 as (q' & Q1' & Q2'). rewrite W, Q1 in Q1'. injection Q1' as <-. rewrite W, <- Q2 in Q2'.
  destruct (levels_debug _ _ _ _ FL) as (l' & FL' & Z & U & HF). edestruct results_fresh with (offs := e_offenders e0') (hs := e_hits e0') as (pr2 & RS2); [exact RS|].
  destruct (calculate_eq round6 fit aic new_cdr percentile cast fuel draw false e0' l' edges t m h dirs im pr2) as (e2 & C2 & M2 & H2 & IM2 & D2 & CE2 & CA2); [rewrite W, G6, <- J1; exact FL'|unfold EyeRunProofs.clock; rewrite G3; reflexivity|exact SP|intros X; discriminate X| |].
  - rewrite W, G4, G5, G6, Q2', <- F4, <- F5, <- J1, <- J3, <- J4, <- J5. rewrite (results_levels _ _ _ _ _ l l') by assumption. unfold e_masked. rewrite (construct_converted _ _ _ _ _ _ _ K). exact RS2.
  - exists e0', e2. split; [exact K|]. split; [exact C2|]. unfold get_raw_heatmap, get_images, get_clock_edges. rewrite CA, CA2, H, H2, IM, IM2, CE, CE2. repeat (split; [reflexivity|]). intros SK b. unfold bit_stream. rewrite CA, CA2, D, D2.
    assert (DS : dirs <> None). { unfold EyeRunProofs.results in RS. destruct (Reqb _ _); [discriminate|]. destruct (sample_all _ _ _ _) as [ct|]; [|discriminate]. cbn [bind] in RS. unfold measured in RS. rewrite SK in RS. destruct (collect _ _) as [vs failed]. destruct (outcome failed); [|discriminate]. cbn [bind] in RS. destruct (some_value (m_y_0 _)); [|discriminate]. destruct (some_value (m_amp _)); [|discriminate]. cbn [bind] in RS. destruct (update_levels _ _ _ _ _ _ _) as [[uu1 uu2] uu3]. destruct (some_value (m_y_cross _)); [|discriminate]. cbn [bind] in RS. destruct (measure_horizontal _ _ _ _ _ _ _ _ _ _); [|discriminate]. cbn [bind] in RS. destruct (eye_sample_mask _ _ _ _ _ _ _) as [[[[? ?] ?] ?]|]; [|discriminate]. cbn [bind] in RS. destruct (bathtub_curves _ _ _ _ _ _ _); [|discriminate]. cbn [bind] in RS.
      destruct (step5_heatmap _ _ _ _ _ _ _ _ _ _ _); [|discriminate]. cbn [bind] in RS. destruct (mask_found _ _ _ _ _ _ _ _ _); [|discriminate]. cbn [bind] in RS. destruct (pictures _ _ _ _ _ _ _ _ _ _ _ _ _); [|discriminate]. injection RS as _ _ <- _ _. discriminate. }
    destruct dirs as [dd|]; [reflexivity|congruence].
Qed.

(** ** The clock is found once *)
(** No call changes the clock edges of an object that has them, so later changes
    of the clock settings have no effect. *)
Theorem C46_clock_kept w ck ce mk res cfg e0 cs1 rs1 e1 edges cs2 rs2 e2 :
  construct w ck ce mk res cfg = Ok e0 -> performs cs1 e0 = (rs1, e1) -> get_clock_edges e1 = Ok (Some edges) -> performs cs2 e1 = (rs2, e2) -> get_clock_edges e2 = Ok (Some edges).
Proof.
  intros C P1 G P2. pose proof (construct_alive _ _ _ _ _ _ _ C) as AL. destruct (alive_performs round6 fit aic new_cdr percentile cast fuel draw _ cs1 e0 rs1 e1 AL P1) as (AL1 & _). destruct (alive_performs round6 fit aic new_cdr percentile cast fuel draw _ cs2 e1 rs2 e2 AL1 P2) as (_ & CA & K & _).
  unfold get_clock_edges in * . destruct (e_calculated e1) eqn:CA1; [|discriminate]. injection G as G. rewrite (proj2 CA (or_introl eq_refl)), (K _ G). reflexivity.
Qed.
Lemma never_succeeds n cs : forall e rs e', alive n e -> e_calculated e = false -> (exists l, e_clock_edges e = Some l /\ (length l < n)%nat) -> performs cs e = (rs, e') -> ~ Exists succeeded rs.
Proof.
  intros e rs e' AL CA (l & C & L) P X. destruct (alive_performs round6 fit aic new_cdr percentile cast fuel draw _ cs e rs e' AL P) as (AL' & CA' & K & _). destruct (al_done _ _ AL' (proj2 CA' (or_intror X))) as (m & l' & _ & C' & L'). rewrite (K l C) in C'. injection C' as <-. lia.
Qed.
(** If the clock of a waveform cannot be found, the calculate raises what finding
    it raised, and no later calculate of that object can return, even with a
    configuration that works for a new object. *)
Theorem C46_failed_clock w ck mk res cfg e0 d l x e1 cs rs e :
  construct w ck None mk res cfg = Ok e0 ->
  find_levels (e_config e0) (all_samples (e_waveforms e0)) d = Ok l ->
  mapM (clock_of new_cdr (e_clocks e0) (e_config e0) l) (clock_source (e_waveforms e0) (e_clocks e0)) = Err x ->
  calculate d e0 = (fst (calculate d e0), e1) -> performs cs e1 = (rs, e) ->
  fst (calculate d e0) = Err x /\ ~ Exists succeeded rs /\ get_measures e = Err RuntimeError.
Proof.
  intros C FL CK E P. pose proof (construct_alive _ _ _ _ _ _ _ C) as AL. destruct (proj1 (proj2 (C46_construct w ck None mk res cfg)) e0 C) as (_ & (_ & _ & F3 & _ & _ & _ & F7 & _)). cbn in F3.
  destruct (steps_clock round6 fit aic new_cdr percentile cast fuel draw d e0) as (_ & CA & [Q|(_ & l' & FL' & CE & FX)]).
  - exfalso. pose proof (step2_found new_cdr d (set_levels l e0) l F3 eq_refl) as F. change (found new_cdr (set_levels l e0) l) with (found new_cdr e0 l) in F. unfold found in F. destruct (collect _ _) as [ys [y|]] eqn:CO; [|apply collect_ok in CO; congruence]. destruct F as (e2 & (CL & _) & F).
    assert (ST : steps round6 fit aic new_cdr percentile cast fuel draw d e0 = (Err y, e2)) by (rewrite steps_rest; unfold abind at 1; rewrite step1_eq, FL; unfold abind; rewrite F; reflexivity). rewrite ST in Q. cbn in Q. congruence.
  - rewrite FL in FL'. injection FL' as <-. unfold found in CE, FX. destruct (collect _ _) as [ys [y|]] eqn:CO; [|apply collect_ok in CO; congruence]. apply collect_err in CO. destruct CO as (CO & LY). rewrite CK in CO. injection CO as <-. rewrite (source_length _ _ AL) in LY. cbn [fst snd] in CE, FX. specialize (FX x eq_refl).
    assert (E1 : calculate d e0 = (Err x, snd (steps round6 fit aic new_cdr percentile cast fuel draw d e0))). { rewrite calculate_steps. destruct (steps _ _ _ _ _ _ _ _ d e0) as [r e']. cbn in FX. subst r. reflexivity. }
    rewrite E1 in E |- * . cbn [fst] in * . injection E as E. split; [reflexivity|]. destruct (alive_calculate _ _ _ _ _ _ _ _ _ d e0 (Err x) _ AL E1) as (AL1 & CA1 & _). rewrite E in AL1, CA1, CE. cbn in CA1. rewrite F7 in CA1.
    assert (NS : ~ Exists succeeded rs) by (apply (never_succeeds _ cs e1 rs e AL1 CA1); [exists ys; split; [exact CE|exact LY]|exact P]). split; [exact NS|]. destruct (alive_performs round6 fit aic new_cdr percentile cast fuel draw _ cs e1 rs e AL1 P) as (_ & CA' & _). unfold get_measures. destruct (e_calculated e); [|reflexivity]. destruct (proj1 CA' eq_refl) as [Z|Z]; [congruence|destruct (NS Z)].
Qed.
(** Debug plots cannot be drawn for given clock edges: the calculate never returns. *)
Theorem C46_debug_given w ck l mk res cfg e0 r e1 : construct w ck (Some (ListOf l)) mk res cfg = Ok e0 -> calculate true e0 = (r, e1) -> exists x, r = Err x.
Proof.
  intros C E. destruct r as [m|x]; [|exists x; reflexivity]. destruct (calculate_inv _ _ _ _ _ _ _ _ true e0 m e1 E) as (l0 & edges & t & h & dirs & im & _ & _ & _ & PL & _). destruct (proj1 (proj2 (C46_construct w ck (Some (ListOf l)) mk res cfg)) e0 C) as (_ & (_ & _ & F3 & _ & _ & _ & _ & _ & F9 & _)). destruct (PL eq_refl) as [Q|Q]; congruence.
Qed.

(** ** Going through *)
(** With both levels given, measuring skipped and a point cloud, increasing clock
    edges always lead to a result. *)
Theorem C46_returns w ck l mk res c e0 v0 v1 :
  construct w ck (Some (ListOf l)) mk res (Some (Some c)) = Ok e0 ->
  0 < e_t_delta e0 -> (1 <= res)%Z ->
  c_y_0 c = Some v0 -> c_y_1 c = Some v1 -> c_skip_measures c = true -> c_point_cloud c = true ->
  - (1 / 2) <= c_edge_lower c < 3 / 2 -> - (1 / 2) <= c_edge_upper c < 3 / 2 ->
  (exists p, is_period (map snd l) p) -> (forall p, is_period (map snd l) p -> 0 < p) ->
  exists m e1, calculate false e0 = (Ok m, e1).
Proof.
  intros C TD RP Y0 Y1 SK PC EL EU (p0 & PE) PP. destruct (proj1 (proj2 (C46_construct w ck (Some (ListOf l)) mk res (Some (Some c)))) e0 C) as ((n & p & (A & N & P2 & _ & (LN & _) & _) & S0) & (_ & _ & F3 & F4 & F5 & F6 & _)). cbn in F3, F6.
  destruct (symbol_period_spec (map snd l)) as (_ & SP & TP); [destruct l; [cbn in LN; lia|discriminate]|intros Q; apply periods_In in PE; rewrite Q in PE; destruct PE|intros q Hq; apply PP; apply periods_In; exact Hq|]. set (t := CdrModel.mean _) in SP, TP.
  assert (LV : exists lv, find_levels (e_config e0) (all_samples (e_waveforms e0)) false = Ok lv) by (rewrite F6; unfold EyeRunModel.find_levels; rewrite Y0, Y1; cbn [bind]; eexists; reflexivity). destruct LV as (lv & LV).
  assert (RS : exists r, results (e_waveforms e0) (e_mask e0) (e_resolution e0) (e_t_delta e0) (e_config e0) lv (map snd l) t (e_masked e0) = Ok r).
  { unfold EyeRunProofs.results. rewrite F6, F5. destruct (Reqb (e_t_delta e0) 0) eqn:TZ; [apply Reqb_true in TZ; lra|].
    destruct (sample_all_total t (e_t_delta e0) (map snd l) (waves (e_waveforms e0)) TP TD) as (ct & ->); [unfold waves; rewrite !map_length, seq_length; unfold dim; rewrite S0; cbn; lia|intros wv Hw; unfold waves in Hw; apply in_map_iff in Hw; destruct Hw as (i & <- & _); cbn [fst]; unfold row, dim; rewrite S0; cbn [nth]; destruct p; [lia|discriminate]|].
    cbn [bind]. unfold measured. rewrite SK. cbn [bind]. rewrite PC. destruct (cloud_total cast fuel t (e_t_delta e0) (l_zero lv) (l_ua lv) (combine (map snd (waves (e_waveforms e0))) ct) res (n_sym (Measures (count_symbols ct) (count_samples ct t (e_t_delta e0)) (fun _ => 0%Z) None None None None None)) TP TD) as (h & ->). cbn [bind].
    rewrite (mask_found_skip _ _ _ _ _ _ _ _ _ SK). cbn [bind]. unfold e_masked. rewrite (construct_converted _ _ _ _ _ _ _ C). unfold pictures.
    match goal with |- context [draw_images ?d ?ca ?r ?h ?a ?b None ?mg ?hs ?os ?td ?tt ?yz ?ua ?ws] => destruct (images_ok ca d r h a b mg hs os td tt yz ua ws RP EL EU) as (u & ->) end. cbn [bind]. eexists. reflexivity. }
  destruct RS as ([[[[m h] dirs] im] pr] & RS). destruct (calculate_eq round6 fit aic new_cdr percentile cast fuel draw false e0 lv (map snd l) t m h dirs im pr LV) as (e1 & E & _); [unfold EyeRunProofs.clock; rewrite F3; reflexivity|exact SP|intros X; discriminate X|exact RS|]. exists m, e1. exact E.
Qed.
End Run.
Print Assumptions C46_history.
Print Assumptions C46_last.
Print Assumptions C46_repeat.
Print Assumptions C46_reuse.
Print Assumptions C46_clock_kept.
Print Assumptions C46_failed_clock.
Print Assumptions C46_debug_given.
Print Assumptions C46_returns.

(** ** Concrete cases *)
(** One waveform of twelve points alternating between 0 and 1. *)
Definition ex_wave : ndarray :=
  NdArray [2; 12]%nat (fun i => match i with [0%nat; j] => INR j | [1%nat; j] => if Nat.even j then 0 else 1 | _ => 0 end).
Definition ex_config : config :=
  Config None (1 / 10) (Some 10000) RISING None 1 true (2 / 10) (1 / 10) (5 / 100) (2 / 10) (8 / 10) 0 true (Some 0) (Some 1) None.
Example C46_returns_witness round6 fit aic new_cdr percentile cast fuel draw :
  exists e0 m e1, construct ex_wave None (Some (ListOf [(true, [4; 6; 8])])) None 10 (Some (Some ex_config)) = Ok e0
    /\ calculate round6 fit aic new_cdr percentile cast fuel draw false e0 = (Ok m, e1).
Proof.
  destruct (proj1 (C46_construct ex_wave None (Some (ListOf [(true, [4; 6; 8])])) None 10 (Some (Some ex_config)))) as (e0 & C).
  { exists 1%nat, 12%nat. split; [right; split; reflexivity|]. split; [lia|]. split; [lia|]. split; [exact I|]. split; [split; [reflexivity|exists [4; 6; 8]; reflexivity]|]. split; [lia|discriminate]. }
  destruct (C46_returns round6 fit aic new_cdr percentile cast fuel draw ex_wave None [(true, [4; 6; 8])] None 10 ex_config e0 0 1 C) as (m & e1 & E); try reflexivity; try lia; try (cbn; lra).
  - destruct (proj1 (proj2 (C46_construct ex_wave None (Some (ListOf [(true, [4; 6; 8])])) None 10 (Some (Some ex_config)))) e0 C) as (_ & (ST & _ & _ & _ & _ & _ & _ & _ & _ & p & D & T)). cbn in ST. destruct ST as (SH & AT). unfold dim in D. rewrite SH in D. cbn in D. injection D as <-. rewrite T, !AT. cbn. lra.
  - exists 2. exists [4; 6; 8]. split; [left; reflexivity|]. exists 0%nat, 4, 6. repeat split. lra.
  - intros p (l & [<-|[]] & k & a & b & A & B & ->). destruct k as [|[|k]]; cbn in A, B; [injection A as <-; injection B as <-; lra|injection A as <-; injection B as <-; lra|destruct k as [|k]; cbn in B; [discriminate|destruct k; discriminate]].
  - exists e0, m, e1. split; [exact C|exact E].
Qed.
(** A waveform without edges: the recovery of the code's default clock raises. *)
Definition flat_wave : ndarray := NdArray [2; 2]%nat (fun i => match i with [0%nat; j] => INR j | _ => 0 end).
Definition code_cdr (t : R) : cdr := fun edges => CdrModel.run Int_part (fun l => l) 1 false false (Some t) edges false.
Example C46_failed_clock_witness round6 fit aic : exists e0 l,
  construct flat_wave None None None 10 (Some (Some ex_config)) = Ok e0
  /\ find_levels round6 fit aic (e_config e0) (all_samples (e_waveforms e0)) false = Ok l
  /\ mapM (clock_of code_cdr (e_clocks e0) (e_config e0) l) (clock_source (e_waveforms e0) (e_clocks e0)) = Err IndexError.
Proof.
  unfold construct. cbn [as_3d flat_wave length shape bind dim nth Nat.eqb negb orb Nat.ltb Nat.leb]. change (2 <? 1)%nat with false. cbn [orb Z.ltb]. change (10 <? 0)%Z with false. cbn [bind]. eexists. eexists. split; [reflexivity|]. cbn [e_config e_waveforms e_clocks]. split; [unfold find_levels, ex_config; cbn [c_y_0 c_y_1 c_hysteresis c_hysteresis_ua c_y_th bind]; reflexivity|].
  unfold clock_source, waves. cbn [dim shape nth seq map mapM]. unfold row. cbn [dim shape nth seq map at_ tl].
  unfold clock_of. cbn [l_low_snr StatsModel.stddev]. replace (Reqb (0 + 0) 0) with true by (symmetry; apply Reqb_true; lra). unfold runner_cdr, selected_edges, edges_np. cbn [fst snd l_rising l_half l_falling c_polarity ex_config length get nth_error bind range seq foldM edges_np_step Nat.sub].
  set (yf := _ - _ / 2). set (yr := _ + _ / 2). assert (F : 0 < yf) by (unfold yf; cbn; lra). assert (Q : 0 < yr) by (unfold yr; cbn; lra). clearbody yf yr.
  change (at_ flat_wave [1%nat; 0%nat] <. yf)%num with (Rltb 0 yf). rewrite (proj2 (Rltb_true 0 yf) F). cbn [edges_np_step]. change (at_ flat_wave [1%nat; 1%nat] >. yr)%num with (Rltb yr 0). assert (E : Rltb yr 0 = false) by (apply Rltb_false; lra). rewrite E. cbn. reflexivity.
Qed.
