(** Proofs for C69: clock recovery with another unit and origin of time. *)
From Coq Require Import ZArith Reals Bool List Lia Lra.
Import ListNotations.
From Verif Require Import Base Num RBool StatsModel CdrModel CdrSpec CdrProofs CdrSearchProofs CdrRunProofs CdrProps EyeUnitsProofs.
From Verif Require EyeProps EyeTimeProofs.
Local Open Scope R_scope.
Local Open Scope result_scope.

Section Cdr.
Variables s o : R.
Hypothesis S0 : 0 < s.
Let g (t : R) : R := s * t + o.
Let d (t : R) : R := s * t.
Variable sort : list (R * R) -> list (R * R).
Variable n_comp : Z.

Lemma np_div_time x y : np_div (d x) (d y) = np_div x y.
Proof.
  unfold np_div. cbn [neq nofZ ndiv NumR]. unfold d. destruct (Reqb y 0) eqn:E; [apply Reqb_true in E|apply Reqb_false in E].
  - rewrite (proj2 (Reqb_true (s * y) 0)) by (rewrite E; ring). reflexivity.
  - rewrite (proj2 (Reqb_false (s * y) 0)) by (intros Q; apply Rmult_integral in Q; lra). rewrite (ratio_units s S0). reflexivity.
Qed.
Lemma floor_div_time x y : floor_div Int_part (d x) (d y) = floor_div Int_part x y.
Proof. unfold floor_div. rewrite np_div_time. reflexivity. Qed.
Lemma fmod_time x y : fmod Int_part (d x) (d y) = (r <- fmod Int_part x y ;; Ok (d r)).
Proof. unfold fmod. rewrite floor_div_time. destruct (floor_div _ _ _); [|reflexivity]. cbn [bind nsub nmul nofZ NumR]. f_equal. unfold d. ring. Qed.
Lemma lt_d x y : Rltb (d x) (d y) = Rltb x y.
Proof. unfold d. replace (s * x) with (s * x + 0) by ring. replace (s * y) with (s * y + 0) by ring. apply (Rltb_f s 0 S0). Qed.
Lemma nabs_time x : nabs (d x) = d (nabs x).
Proof. unfold nabs. cbn [nlt nofZ nsub NumR]. replace 0 with (d 0) at 1 by (unfold d; ring). rewrite lt_d. destruct (Rltb x 0); unfold d; ring. Qed.
Lemma diff_d l : diff (map d l) = map d (diff l).
Proof. induction l as [|x [|y l] IH]; [reflexivity..|]. cbn [map diff] in *  . rewrite IH. f_equal. cbn [nsub NumR]. unfold d. ring. Qed.
Lemma le_g x y : Rleb (g x) (g y) = Rleb x y.
Proof. unfold g. destruct (Rleb x y) eqn:E; [apply Rleb_true in E; apply Rleb_true; nra|apply Rleb_false in E; apply Rleb_false; nra]. Qed.
Lemma sorted_g l : CdrModel.sorted (map g l) = CdrModel.sorted l.
Proof. induction l as [|x [|y l] IH]; [reflexivity..|]. cbn [map CdrModel.sorted] in *  . rewrite IH. cbn [nle NumR]. rewrite le_g. reflexivity. Qed.
Lemma previous_time xs ys f x : previous (combine (map g xs) (map d ys)) (d f) (g x) = d (previous (combine xs ys) f x).
Proof.
  unfold previous. revert ys f. induction xs as [|a xs IH]; intros [|b ys] f; [reflexivity..|]. cbn [map combine fold_left fst snd]. cbn [nle NumR]. rewrite le_g. destruct (Rleb a x); apply IH.
Qed.
Lemma resample_time xs ys f l : resample previous (map g xs) (map d ys) (d f) (map g l) = (r <- resample previous xs ys f l ;; Ok (map d r)).
Proof. unfold resample. rewrite sorted_g. destruct (CdrModel.sorted xs); [|reflexivity]. cbn [bind]. rewrite !map_map. f_equal. apply map_ext. intros x. apply previous_time. Qed.
Lemma last_g l : l <> [] -> last (map g l) 0 = g (last l 0).
Proof. induction l as [|x [|y l] IH]; intros N; [congruence|reflexivity|]. cbn [map last] in *  . apply IH. discriminate. Qed.
Lemma hd_d l : hd 0 (map d l) = d (hd 0 l).
Proof. destruct l; [unfold d; cbn [map hd]; ring|reflexivity]. Qed.
Lemma linspace_time t n : linspace 0 (d t * IZR (n - 1)) (Z.to_nat n) = map d (linspace 0 (t * IZR (n - 1)) (Z.to_nat n)).
Proof.
  unfold linspace. destruct (Z.to_nat n) as [|[|m]]; [reflexivity|cbn [map]; f_equal; unfold d; ring|]. cbv zeta. rewrite map_app, map_map. f_equal; [|cbn [map]; f_equal; unfold d; ring]. apply map_ext. intros i. cbn [nadd nsub nmul ndiv nofZ NumR]. unfold d, Rdiv. ring.
Qed.
Lemma get_first l : get (map g l) 0 = (x <- get l 0 ;; Ok (g x)).
Proof. apply get_map. Qed.
Lemma diff_g l : diff (map g l) = map d (diff l).
Proof. apply (EyeTimeProofs.diff_time s o). Qed.
Lemma mean_d l : mean (map d l) = d (mean l).
Proof. apply (EyeTimeProofs.mean_time s). Qed.
(** Moving the origin only: the edges are used relative to the first *)
Lemma minimize_shift compiled : s = 1 -> forall n edges lo hi tol, minimize Int_part sort n_comp compiled n (map g edges) lo hi tol = minimize Int_part sort n_comp compiled n edges lo hi tol.
Proof.
  intros S1. assert (E : forall edges e0, map (fun e => e -. g e0)%num (map g edges) = map (fun e => e -. e0)%num edges) by (intros edges e0; rewrite map_map; apply map_ext; intros e; cbn [nsub NumR]; unfold g; rewrite S1; ring).
  induction n as [|n IH]; intros edges lo hi tol; cbn [minimize]; rewrite get_first; (destruct (get edges 0) as [e0|]; [|reflexivity]); cbn [bind]; rewrite E.
  - reflexivity.
  - destruct (tie_scores _ _ _ _) as [sc|]; [|reflexivity]. cbn [bind]. destruct (get sc 0) as [best|]; [|reflexivity]. cbn [bind]. destruct (snd best <. tol)%num; [reflexivity|]. destruct (finer _ _ _ _ _ _ _) as [[m lower]|]; [|reflexivity]. cbn [bind]. destruct lower as [|x lower]; [reflexivity|]. destruct (step_of _ _ _ _ _) as [st|]; [|reflexivity]. cbn [bind]. destruct (py_min (x :: lower)) as [l1|]; [|reflexivity]. cbn [bind]. destruct (py_max (x :: lower)) as [h1|]; [|reflexivity]. cbn [bind]. destruct (py_max [lo; _]) as [l2|]; [|reflexivity]. cbn [bind]. destruct (py_min [hi; _]) as [h2|]; [|reflexivity]. cbn [bind]. apply IH.
Qed.
Lemma detrend_shift compiled edges t : s = 1 -> detrend Int_part compiled (map g edges) t = detrend Int_part compiled edges t.
Proof.
  intros S1. assert (E : forall x y, (g x -. g y = x -. y)%num) by (intros; cbn [nsub NumR]; unfold g; rewrite S1; ring). destruct compiled; unfold detrend.
  - destruct edges as [|t0 l]; [reflexivity|]. cbn [map]. unfold detrend_ties_c. assert (U : forall l bo to pt, unwrap_loop Int_part (g t0) t (map g l) bo to pt = unwrap_loop Int_part t0 t l bo to pt).
    { clear l. induction l as [|e l IH]; intros bo to pt; [reflexivity|]. cbn [map unwrap_loop]. cbv zeta. rewrite E. destruct (floor_div _ _ _) as [bit|]; [|reflexivity]. cbn [bind]. destruct (_ <. _)%num; [rewrite IH; reflexivity|]. destruct (_ <. _)%num; rewrite IH; reflexivity. }
    rewrite U. reflexivity.
  - unfold detrend_ties, unwrap. cbv zeta. rewrite get_first. destruct (get edges 0) as [e0|]; [|reflexivity]. cbn [bind]. rewrite !EyeProps.mapM_map_arg, map_length.
    rewrite (mapM_ext' _ (fun e => floor_div Int_part (e -. e0 +. t /. nofZ 2) t)%num) by (intros e _; rewrite E; reflexivity). rewrite (mapM_ext' (fun e => fmod _ _ _) (fun e => fmod Int_part (e -. e0 +. t /. nofZ 2) t)%num) by (intros e _; rewrite E; reflexivity). reflexivity.
Qed.
Lemma run_time compiled fixed p edges res : fixed = true \/ s = 1 ->
  run Int_part sort n_comp compiled fixed (Some (d p)) (map g edges) res = (r <- run Int_part sort n_comp compiled fixed (Some p) edges res ;; Ok (map g (fst r), map d (snd r))).
Proof.
  intros FX. unfold run. rewrite get_first, map_length. destruct (get edges 0) as [t0|] eqn:G; [|reflexivity]. cbn [bind]. destruct (length edges <? 2)%nat eqn:LN; [reflexivity|]. cbv zeta. rewrite diff_g, EyeProps.mapM_map_arg.
  rewrite (mapM_ext' (fun x => q <- np_div (d x) (d p) ;; _) (fun x => q <- np_div x p ;; Ok (Int_part (q +. nofZ 1 /. nofZ 2)))%num) by (intros x _; rewrite np_div_time; reflexivity).
  destruct (mapM _ (diff edges)) as [ns|]; [|reflexivity]. cbn [bind]. destruct (_ || _); [reflexivity|].
  set (old := if fixed then Ok p else _). assert (PR : (if fixed then Ok (d p) else t <- minimize Int_part sort n_comp compiled 10 (map g edges) (d p *. (nofZ 1 -. nofZ 1 /. nofZ 100)) (d p *. (nofZ 1 +. nofZ 1 /. nofZ 100)) (nofZ 100) ;; detrend Int_part compiled (map g edges) t)%num = (t <- old ;; Ok (d t))).
  { destruct FX as [->|S1]; [reflexivity|]. unfold old. destruct fixed; [reflexivity|]. replace (d p) with p by (unfold d; rewrite S1; ring). rewrite (minimize_shift compiled S1). destruct (minimize _ _ _ _ _ _ _ _ _) as [t|]; [|reflexivity]. cbn [bind]. rewrite (detrend_shift compiled edges t S1). destruct (detrend _ _ _ _) as [t1|]; [|reflexivity]. cbn [bind]. f_equal. unfold d. rewrite S1. ring. }
  rewrite PR. clear PR. destruct old as [t|]; [|reflexivity]. cbn [bind]. rewrite EyeProps.mapM_map_arg.
  assert (T2 : (d t /. nofZ 2)%num = d (t /. nofZ 2)%num) by (cbn [ndiv nofZ NumR]; unfold d, Rdiv; ring). rewrite !T2. set (t2 := (t /. nofZ 2)%num).
  rewrite (mapM_hom (fun x => m <- fmod Int_part (g x -. g t0 +. d t2) (d t) ;; Ok (m -. d t2))%num (fun x => m <- fmod Int_part (x -. t0 +. t2) t ;; Ok (m -. t2))%num d).
  2:{ intros x. replace (g x -. g t0 +. d t2)%num with (d (x -. t0 +. t2)%num) by (cbn [nadd nsub NumR]; unfold d, g; ring). rewrite fmod_time. destruct (fmod _ _ _); [|reflexivity]. cbn [bind nsub NumR]. f_equal. unfold d. ring. }
  destruct (mapM _ edges) as [ties|]; [|reflexivity]. cbn [bind]. rewrite mean_d. set (m := mean ties). rewrite !map_map.
  assert (TM : map (fun x => (d x -. d m)%num) ties = map d (map (fun x => (x -. m)%num) ties)) by (rewrite map_map; apply map_ext; intros x; cbn [nsub NumR]; unfold d; ring). rewrite TM. set (tm := map (fun x => (x -. m)%num) ties). rewrite diff_d.
  assert (EX : forall l, existsb (fun x => d t2 <. nabs x)%num (map d l) = existsb (fun x => t2 <. nabs x)%num l) by (induction l as [|x l IH]; [reflexivity|]; cbn [map existsb]; rewrite IH, nabs_time; cbn [nlt NumR]; rewrite lt_d; reflexivity). rewrite EX. destruct (existsb _ _); [reflexivity|].
  assert (NE : edges <> []) by (intros ->; discriminate G). assert (LH : (last (map g edges) (nofZ 0) -. hd (nofZ 0) (map g edges))%num = d (last edges (nofZ 0) -. hd (nofZ 0) edges)%num).
  { cbn [nofZ nsub NumR]. rewrite last_g by exact NE. destruct edges as [|x l]; [congruence|]. cbn [map hd]. unfold d, g. ring. }
  rewrite LH, np_div_time. destruct (np_div _ t) as [q|]; [|reflexivity]. cbn [bind]. set (n := (- Int_part _)%Z). destruct (n <? 0)%Z; [reflexivity|].
  assert (CL : map (fun x => x +. (g t0 +. d m) +. d t2)%num (linspace (nofZ 0) (d t *. nofZ (n - 1)) (Z.to_nat n))%num = map g (map (fun x => x +. (t0 +. m) +. t2)%num (linspace (nofZ 0) (t *. nofZ (n - 1)) (Z.to_nat n))%num)).
  { cbn [nofZ nmul NumR]. rewrite linspace_time, !map_map. apply map_ext. intros x. cbn [nadd NumR]. unfold g, d. ring. }
  rewrite CL. set (clk := map _ (linspace _ _ _)). destruct res; [|reflexivity]. cbn [nofZ NumR]. rewrite hd_d, resample_time. destruct (resample _ _ _ _ _); reflexivity.
Qed.
End Cdr.

(** ** Two edges 1.4 expected periods apart *)
Section Two.
Variable sort : list (R * R) -> list (R * R).
Hypothesis SO : sorts sort.
Variable n_comp : Z.
Hypothesis NC : (200000 <= n_comp)%Z.
Variable T : R.
Hypothesis TP : 0 < T.
Let edges := ideal 0 (7 / 5 * T) [0; 1]%Z.
Lemma two_numbered t : 99 / 100 * T <= t <= 101 / 100 * T -> clearly_numbered t edges [0; 1]%Z.
Proof. intros B. unfold edges, ideal. cbn [map clearly_numbered]. split; [|exact I]. change (1 - 0)%Z with 1%Z. apply Rabs_def1; lra. Qed.
Lemma two_score t : 99 / 100 * T <= t <= 101 / 100 * T -> tie_score Int_part (map (fun e => e - (0 + 0 * (7 / 5 * T))) edges) t = Ok (7 / 5 * T - t - 1).
Proof.
  intros B. assert (D : differ [0; 1]%Z) by (exists 0%Z, 1%Z; cbn; intuition lia).
  pose proof (C42_exact false 0 (7 / 5 * T) t [0; 1]%Z ltac:(lra) D (two_numbered t B)) as E. change edges with [0 + 0 * (7 / 5 * T); 0 + 1 * (7 / 5 * T)]. change (ideal 0 (7 / 5 * T) [0; 1]%Z) with [0 + 0 * (7 / 5 * T); 0 + 1 * (7 / 5 * T)] in E.
  rewrite (score_eq (0 + 0 * (7 / 5 * T)) [0 + 1 * (7 / 5 * T)] t) by lra. rewrite E. cbn [bind].
  assert (J : jumps t (map (tv (0 + 0 * (7 / 5 * T)) t) [0 + 0 * (7 / 5 * T); 0 + 1 * (7 / 5 * T)]) = 0%nat).
  { cbn [map]. rewrite jumps_cons. destruct (Rlt_dec _ _) as [L|L]; [exfalso|reflexivity]. assert (V : tv (0 + 0 * (7 / 5 * T)) t (0 + 1 * (7 / 5 * T)) = 7 / 5 * T - t).
    { unfold tv, nb. rewrite (floor_unique _ 1); [ring|]. split; apply (Rmult_le_reg_r t) || apply (Rmult_lt_reg_r t); try lra; unfold Rdiv; rewrite Rmult_assoc, Rinv_l by lra; lra. }
    rewrite V, tv_first in L by lra. revert L. apply Rle_not_lt. apply Rabs_le. lra. }
  rewrite J. rewrite Rabs_right by lra. reflexivity.
Qed.
Lemma two_rate : rate T edges = 1.
Proof.
  unfold rate, edges, ideal. cbn [map diff]. rewrite (floor_unique _ 1).
  - unfold mean, nsum. cbn. field.
  - cbn [nsub NumR]. assert (Q : (0 + 1 * (7 / 5 * T) - (0 + 0 * (7 / 5 * T))) / T = 7 / 5) by (field; lra). rewrite Q. lra.
Qed.
Lemma two_exists t : T * (1 - 1 / 100) <= t <= T * (1 + 1 / 100) -> exists x, tie_score Int_part (map (fun e => e - (0 + 0 * (7 / 5 * T))) edges) t = Ok x.
Proof. intros B. eexists. apply two_score. lra. Qed.
Lemma two_found compiled rs : T <= 200 -> exists r, run Int_part sort n_comp compiled false (Some T) edges rs = Ok r.
Proof.
  intros L. assert (D : differ [0; 1]%Z) by (exists 0%Z, 1%Z; cbn; intuition lia). pose proof two_rate as RT. change edges with [0 + 0 * (7 / 5 * T); 0 + 1 * (7 / 5 * T)] in *  . rewrite run_eq by lra. rewrite RT.
  destruct (Rltb 1 (9 / 10)) eqn:X; [apply Rltb_true in X; lra|]. destruct (Rltb 5 1) eqn:Y; [apply Rltb_true in Y; lra|]. cbn [orb]. unfold recovered.
  destruct (search_first sort SO n_comp compiled 10 (0 + 0 * (7 / 5 * T)) [0 + 1 * (7 / 5 * T)] (T * (1 - 1 / 100)) (T * (1 + 1 / 100)) 100 (T * (1 - 1 / 100)) (7 / 5 * T - T * (1 - 1 / 100) - 1)) as (p & P).
  - exact two_exists.
  - lra.
  - unfold span_c. apply in_map_iff. exists 0%nat. split; [cbn [nadd nmul nofZ NumR]; cbn; ring|]. apply in_seq. lia.
  - apply two_score. lra.
  - lra.
  - unfold minim in *  . rewrite P. cbn [bind]. destruct (search_ok sort SO n_comp NC compiled 10 (0 + 0 * (7 / 5 * T)) [0 + 1 * (7 / 5 * T)] (T * (1 - 1 / 100)) (T * (1 + 1 / 100)) 100 p) as (B & _); [lra..|exact P|].
    change [0 + 0 * (7 / 5 * T); 0 + 1 * (7 / 5 * T)] with (ideal 0 (7 / 5 * T) [0; 1]%Z). rewrite (C42_exact compiled 0 (7 / 5 * T) p [0; 1]%Z) by (first [lra | exact D | apply two_numbered; lra]). cbn [bind].
    destruct (ideal_finish 0 (7 / 5 * T) [0; 1]%Z rs) as (ties & F & _); [lra|discriminate|cbn; lia|]. rewrite F. eexists. reflexivity.
Qed.
Lemma two_finer compiled ns : 1000 <= T -> Forall (fun p => (2 <= fst p /\ 2 <= snd p)%Z) ns ->
  finer Int_part sort compiled (map (fun e => e - (0 + 0 * (7 / 5 * T))) edges) (T * (1 - 1 / 100)) (T * (1 + 1 / 100)) ns = Ok (0%Z, []).
Proof.
  intros L F. induction F as [|[n k] ns (N & K) F IH]; [reflexivity|]. cbn [fst snd] in *  . cbn [finer]. rewrite firstn_all2 by (unfold edges; cbn; lia).
  destruct (ts_ok sort (map (fun e => e - (0 + 0 * (7 / 5 * T))) edges) (span compiled (T * (1 - 1 / 100)) (T * (1 + 1 / 100)) k)) as (r & TS). { intros t I. apply two_exists. apply (span_in compiled _ _ k); [lra|exact K|exact I]. }
  unfold ts in TS. rewrite TS. cbn [bind]. replace (filter _ r) with (@nil (R * R)); [exact IH|]. symmetry. assert (A : forall x, In x r -> 1 <= snd x).
  { intros x I. destruct (ts_in sort SO _ _ _ _ TS I) as (I' & S'). apply span_in in I'; [|lra|exact K]. rewrite two_score in S' by lra. injection S' as <-. lra. }
  clear -A. induction r as [|x r IH]; [reflexivity|]. cbn [filter]. cbn [nlt nofZ NumR]. rewrite (proj2 (Rltb_false (snd x) 1)) by (apply A; left; reflexivity). apply IH. intros y I. apply A. right. exact I.
Qed.
Lemma two_lost compiled rs : 1000 <= T -> run Int_part sort n_comp compiled false (Some T) edges rs = Err ArithmeticError.
Proof.
  intros L. pose proof two_rate as RT. pose proof (two_finer compiled (rounds n_comp compiled) L) as FN. pose proof two_score as TSC. pose proof two_exists as TE. change edges with [0 + 0 * (7 / 5 * T); 0 + 1 * (7 / 5 * T)] in *  . rewrite run_eq by lra. rewrite RT.
  destruct (Rltb 1 (9 / 10)) eqn:X; [apply Rltb_true in X; lra|]. destruct (Rltb 5 1) eqn:Y; [apply Rltb_true in Y; lra|]. cbn [orb]. unfold recovered, minim. cbn [minimize]. change (get [0 + 0 * (7 / 5 * T); 0 + 1 * (7 / 5 * T)] 0) with (@Ok R (0 + 0 * (7 / 5 * T))). cbn [bind].
  change (map (fun e => e -. (0 + 0 * (7 / 5 * T)))%num [0 + 0 * (7 / 5 * T); 0 + 1 * (7 / 5 * T)]) with (map (fun e => e - (0 + 0 * (7 / 5 * T))) [0 + 0 * (7 / 5 * T); 0 + 1 * (7 / 5 * T)]).
  set (es := map (fun e => e - (0 + 0 * (7 / 5 * T))) [0 + 0 * (7 / 5 * T); 0 + 1 * (7 / 5 * T)]) in *  . set (k := Z.max 20 _).
  destruct (ts_ok sort es (span compiled (T * (1 - 1 / 100)) (T * (1 + 1 / 100)) k)) as (r & TS). { intros t I. apply TE. apply (span_in compiled _ _ k); [lra|unfold k; lia|exact I]. }
  pose proof TS as TS'. unfold ts in TS'. rewrite TS'. cbn [bind]. destruct (ts_best sort SO es _ r (T * (1 - 1 / 100)) (7 / 5 * T - T * (1 - 1 / 100) - 1) TS) as (b & r' & -> & _).
  { rewrite span_eq by (unfold k; lia). unfold span_c. apply in_map_iff. exists 0%nat. split; [cbn [nadd nmul nofZ NumR]; cbn; ring|]. apply in_seq. unfold k. lia. }
  { apply TSC. lra. }
  change (get (b :: r') 0) with (Ok b). cbn [bind]. destruct (ts_in sort SO _ _ _ b TS (or_introl eq_refl)) as (I' & S'). apply span_in in I'; [|lra|unfold k; lia]. rewrite TSC in S' by lra. assert (SB : snd b = 7 / 5 * T - fst b - 1) by congruence.
  cbn [nlt NumR]. rewrite (proj2 (Rltb_false (snd b) 100)) by lra. rewrite FN; [reflexivity|].
  destruct (rounds_ok n_comp NC compiled) as (R2 & _). rewrite Forall_forall in *  . intros p I. split; [|apply R2; exact I]. clear -I. unfold rounds in I. destruct compiled; cbn in I; intuition (subst; cbn; lia).
Qed.
End Two.
