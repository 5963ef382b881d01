(** Proofs about autoscaling the channels of scopes. *)
From Coq Require Import String ZArith Bool QArith Qabs Qreals Reals Lra Lia List.
Import ListNotations.
From Verif Require Import Base Num RBool PyStr PyStrProofs ScpiModel ScpiProofs IOModel EquipModel EquipSpec EquipProofs TekModel TekSpec ScopeModel ScopeSpec
  ScopeProofs ScopeUseModel ScopeUseSpec ScopeAcqProps ScopeWaveProps AutoModel AutoSpec AutoProofs ScopeAutoModel ScopeAutoSpec.
Local Open Scope Z_scope.
Local Open Scope list_scope.

(** ** From rationals to reals *)
Definition rmap {A B} (f : A -> B) (r : result A) : result B := match r with Ok a => Ok (f a) | Err e => Err e end.
Lemma Q2R_red x : Q2R (Qred x) = Q2R x. Proof. apply Qeq_eqR, Qred_correct. Qed.
Lemma Q2R_Z z : Q2R (inject_Z z) = IZR z. Proof. unfold Q2R, inject_Z. cbn. lra. Qed.
Lemma Qltb_R x y : Qltb x y = Rltb (Q2R x) (Q2R y).
Proof.
  unfold Qltb, Rltb. destruct (Rlt_dec (Q2R x) (Q2R y)) as [L|L].
  - apply Rlt_Qlt in L. apply Z.ltb_lt. exact L.
  - apply Z.ltb_ge. apply Rnot_lt_le in L. apply Rle_Qle in L. exact L.
Qed.
Lemma Qeqb_R x y : Qeq_bool x y = Reqb (Q2R x) (Q2R y).
Proof.
  destruct (Qeq_bool x y) eqn:E; symmetry.
  - apply Qeq_bool_iff, Qeq_eqR in E. apply Reqb_true. exact E.
  - apply Reqb_false. intro X. apply eqR_Qeq in X. apply Qeq_bool_iff in X. congruence.
Qed.
Lemma Q2R_nz y : Q2R y <> 0%R -> ~ (y == 0)%Q.
Proof. intros N E. apply N. apply Qeq_eqR in E. rewrite E. apply RMicromega.Q2R_0. Qed.
Lemma np_div_hom a b : np_div (Q2R a) (Q2R b) = rmap Q2R (np_div a b).
Proof.
  unfold np_div. cbn [neq nofZ ndiv NumR NumQ]. rewrite <- (Q2R_Z 0), <- Qeqb_R.
  destruct (Qeq_bool b (inject_Z 0)) eqn:E; cbn [rmap]; [reflexivity|].
  rewrite Q2R_red, Q2R_div; [reflexivity|]. intro X. apply Qeq_bool_iff in X. change 0%Q with (inject_Z 0) in X. congruence.
Qed.

Lemma cst_hom n d : (0 < d)%Z -> cst n d = Q2R (cst n d).
Proof.
  intro P. unfold cst. cbn [nofZ ndiv NumR NumQ]. rewrite Q2R_red, Q2R_div, !Q2R_Z; [reflexivity|].
  intro E. apply Qeq_eqR in E. rewrite Q2R_Z in E. change 0%Q with (inject_Z 0) in E. rewrite Q2R_Z in E. apply eq_IZR in E. lia.
Qed.
Lemma add_hom a b : (Q2R a +. Q2R b)%num = Q2R (a +. b)%num. Proof. cbn [nadd NumR NumQ]. rewrite Q2R_red, Q2R_plus. reflexivity. Qed.
Lemma sub_hom a b : (Q2R a -. Q2R b)%num = Q2R (a -. b)%num. Proof. cbn [nsub NumR NumQ]. rewrite Q2R_red, Q2R_minus. reflexivity. Qed.
Lemma mul_hom a b : (Q2R a *. Q2R b)%num = Q2R (a *. b)%num. Proof. cbn [nmul NumR NumQ]. rewrite Q2R_red, Q2R_mult. reflexivity. Qed.
Lemma div_hom a z : (0 < z)%Z -> (Q2R a /. nofZ z)%num = Q2R (a /. nofZ z)%num.
Proof.
  intro P. cbn [nofZ ndiv NumR NumQ]. rewrite Q2R_red, Q2R_div, Q2R_Z; [reflexivity|].
  intro E. apply Qeq_eqR in E. rewrite Q2R_Z in E. change 0%Q with (inject_Z 0) in E. rewrite Q2R_Z in E. apply eq_IZR in E. lia.
Qed.
Lemma nofZ_hom z : nofZ z = Q2R (nofZ z). Proof. cbn [nofZ NumR NumQ]. rewrite Q2R_Z. reflexivity. Qed.
Lemma lt_hom a b : (Q2R a <. Q2R b)%num = (a <. b)%num. Proof. cbn [nlt NumR NumQ]. symmetry. apply Qltb_R. Qed.
Lemma eq_hom a b : (Q2R a =. Q2R b)%num = (a =. b)%num. Proof. cbn [neq NumR NumQ]. symmetry. apply Qeqb_R. Qed.
Lemma fold_hom (pick : forall A, Num A -> A -> A -> A) : (forall a b, pick R _ (Q2R a) (Q2R b) = Q2R (pick Q _ a b)) ->
  forall l a, fold_left (pick R _) (map Q2R l) (Q2R a) = Q2R (fold_left (pick Q _) l a).
Proof. intros P. induction l as [|b l IH]; intro a; [reflexivity|]. cbn [map fold_left]. rewrite P. apply IH. Qed.
Lemma min_hom l : py_min (map Q2R l) = rmap Q2R (py_min l).
Proof.
  destruct l as [|a l]; [reflexivity|]. cbn [map py_min rmap]. f_equal.
  apply (fold_hom (fun A (NA : Num A) (m x : A) => if @nlt A NA x m then x else m)). intros x y. cbv beta. rewrite lt_hom. destruct (y <. x)%num; reflexivity.
Qed.
Lemma max_hom l : py_max (map Q2R l) = rmap Q2R (py_max l).
Proof.
  destruct l as [|a l]; [reflexivity|]. cbn [map py_max rmap]. f_equal.
  apply (fold_hom (fun A (NA : Num A) (m x : A) => if @nlt A NA m x then x else m)). intros x y. cbv beta. rewrite lt_hom. destruct (x <. y)%num; reflexivity.
Qed.
Lemma screen_hom data lo hi : screen (map Q2R data) (Q2R lo) (Q2R hi) = rmap (map Q2R) (screen data lo hi).
Proof.
  unfold screen. rewrite (sub_hom hi lo). induction data as [|y data IH]; [reflexivity|]. cbn [map mapM].
  rewrite (sub_hom y lo), np_div_hom. destruct (np_div (y -. lo)%num (hi -. lo)%num) as [q|e]; cbn [rmap bind]; [|reflexivity].
  rewrite IH. destruct (mapM _ data) as [l|e]; cbn [rmap bind map]; [|reflexivity]. rewrite cst_hom, sub_hom by lia. reflexivity.
Qed.
Definition both (x : Q * Q) : R * R := (Q2R (fst x), Q2R (snd x)).
Lemma recentre_hom n p s m s' : recentre n (Q2R p) (Q2R s) (Q2R m) (Q2R s') = rmap Q2R (recentre n p s m s').
Proof. unfold recentre. rewrite nofZ_hom, !mul_hom, !sub_hom, !mul_hom. apply np_div_hom. Qed.
Lemma clipped_scale_hom s m : clipped_scale (Q2R s) (Q2R m) = Q2R (clipped_scale s m).
Proof.
  unfold clipped_scale. rewrite !(cst_hom _ 10), !lt_hom by lia.
  destruct (cst 6 10 <. m)%num; [rewrite nofZ_hom; apply mul_hom|]. destruct (m <. cst 1 10)%num; [apply div_hom; lia|reflexivity].
Qed.
Lemma correction_hom n p s data : correction n (Q2R p) (Q2R s) (map Q2R data) = rmap (option_map both) (correction n p s data).
Proof.
  unfold correction. rewrite min_hom, max_hom. destruct (py_min data) as [a|e]; [|reflexivity]. destruct (py_max data) as [b|e]; [|reflexivity].
  cbn [rmap bind]. rewrite !add_hom, div_hom, !sub_hom, !clipped_scale_hom, !(cst_hom _ 100), !(cst_hom _ 10), !nofZ_hom, !sub_hom, !lt_hom by lia.
  set (mid := ((a +. b) /. nofZ 2)%num). set (span := (b -. a)%num).
  assert (RC : forall s', bind (recentre n (Q2R p) (Q2R s) (Q2R mid) (Q2R s')) (fun p0 => Ok (Some (Q2R s', p0))) =
    rmap (option_map both) (bind (recentre n p s mid s') (fun p0 => Ok (Some (s', p0))))).
  { intro s'. rewrite recentre_hom. destruct (recentre n p s mid s'); reflexivity. }
  destruct (cst 45 100 <. b)%num; [apply RC|]. destruct (a <. nofZ 0 -. cst 45 100)%num; [apply RC|].
  destruct (span <. cst 5 100)%num eqn:SP; [rewrite <- nofZ_hom, div_hom by lia; apply RC|].
  assert (NZ : ~ (span == 0)%Q).
  { intro Z. cbn [nlt NumQ] in SP. rewrite Qltb_R, <- cst_hom in SP by lia. apply Qeq_eqR in Z. rewrite Z, RMicromega.Q2R_0, cst_R in SP.
    unfold Rltb in SP. destruct (Rlt_dec 0 (5 / 100)); [discriminate SP|lra]. }
  assert (ND : (Q2R (cst 8 10) /. Q2R span)%num = Q2R (cst 8 10 /. span)%num).
  { cbn [ndiv NumR NumQ]. rewrite Q2R_red, Q2R_div by exact NZ. reflexivity. }
  rewrite ND, np_div_hom. set (rescale := (_ || _)).
  assert (NS : (if rescale then rmap Q2R (np_div s (cst 8 10 /. span)%num) else Ok (Q2R s)) =
    rmap Q2R (if rescale then np_div s (cst 8 10 /. span)%num else Ok s)) by (destruct rescale; reflexivity).
  rewrite NS. destruct (if rescale then np_div s (cst 8 10 /. span)%num else Ok s) as [s'|e]; [|reflexivity]. cbn [rmap bind]. rewrite eq_hom.
  match goal with |- (if ?b then _ else _) = _ => destruct b end; [apply RC|]. destruct rescale; reflexivity.
Qed.

(** ** The conversation *)
Section Does.
Context {D : Type}.
Variable dev : device D.
Variable P : event -> Prop.
Lemma does_nothing {X} (m : io D X) : (forall w, w_log (snd (m w)) = w_log w) -> does m P.
Proof. intros N w res w' E. exists []. rewrite app_nil_r. split; [|constructor]. specialize (N w). rewrite E in N. exact N. Qed.
Lemma does_bind {X Y} (m : io D X) (k : X -> io D Y) : does m P -> (forall x, does (k x) P) -> does (iobind m k) P.
Proof.
  intros M K w res w' E. unfold iobind in E. destruct (m w) as [[x|e] w1] eqn:E1; destruct (M _ _ _ E1) as (evs & L & F).
  - destruct (K x _ _ _ E) as (evs' & L' & F'). exists (evs ++ evs'). split; [rewrite L', L, app_assoc; reflexivity|]. apply Forall_app. auto.
  - apply pair_equal_spec in E. destruct E as [<- <-]. exists evs. auto.
Qed.
Lemma does_send c : (forall r e, P (Wrote r c) /\ P (WriteFailed r c e)) -> does (send dev c) P.
Proof.
  intros A w res w' E. unfold send, iobind, get_inst, write_resource, raise in E. destruct (w_inst w) as [r|].
  - destruct (dev_write dev (w_dev w) c) as [[[]|e] d]; apply pair_equal_spec in E; destruct E as [<- <-]; eexists; (split; [reflexivity|]);
      (constructor; [|constructor]); apply (A r); exact OverflowError.
  - apply pair_equal_spec in E. destruct E as [<- <-]. exists []. rewrite app_nil_r. auto.
Qed.
Lemma does_ask c : (forall r a e, P (Queried r c a) /\ P (QueryFailed r c e)) -> does (ask dev c) P.
Proof.
  intros A w res w' E. unfold ask, iobind, get_inst, query_resource, raise, ret in E. destruct (w_inst w) as [r|].
  - destruct (dev_query dev (w_dev w) c) as [[a|e] d]; apply pair_equal_spec in E; destruct E as [<- <-]; eexists; (split; [reflexivity|]);
      (constructor; [|constructor]); apply (A r); (exact [] || exact OverflowError).
  - apply pair_equal_spec in E. destruct E as [<- <-]. exists []. rewrite app_nil_r. auto.
Qed.
Lemma does_receive : (forall r b e, P (ReadRaw r b) /\ P (ReadFailed r e)) -> does (receive dev) P.
Proof.
  intros A w res w' E. unfold receive, iobind, get_inst, raw_resource, raise in E. destruct (w_inst w) as [r|].
  - destruct (dev_raw dev (w_dev w)) as [[a|e] d]; apply pair_equal_spec in E; destruct E as [<- <-]; eexists; (split; [reflexivity|]);
      (constructor; [|constructor]); apply (A r); (exact [] || exact OverflowError).
  - apply pair_equal_spec in E. destruct E as [<- <-]. exists []. rewrite app_nil_r. auto.
Qed.
Lemma does_sleep : P Slept -> does (@sleep D) P.
Proof. intros A w res w' E. apply pair_equal_spec in E. destruct E as [<- <-]. exists [Slept]. auto. Qed.
Lemma does_ret {X} (x : X) : does (@ret D X x) P. Proof. apply does_nothing. reflexivity. Qed.
Lemma does_raise {X} e : does (@raise D X e) P. Proof. apply does_nothing. reflexivity. Qed.
Lemma does_lift {X} (r : result X) : does (@lift D X r) P. Proof. apply does_nothing. reflexivity. Qed.
Hypothesis SL : P Slept.
Lemma does_poll c add : does (ask dev c) P -> match add with Some x => does (send dev x) P | None => True end -> does (poll dev c add) P.
Proof. intros A S. destruct add as [x|]; cbn [poll]; [apply does_bind; auto|exact A]. Qed.
Lemma does_loop fuel : forall c states add t s, does (poll dev c add) P -> does (wait_loop dev fuel c states add t s) P.
Proof.
  induction fuel as [|fuel IH]; intros c states add t s A; cbn [wait_loop].
  - destruct (_ && _)%bool; [apply does_raise|apply does_ret].
  - destruct (_ && _)%bool; [|apply does_ret]. apply does_bind; [apply does_sleep, SL|]. intros _. apply does_bind; [exact A|]. intro x. apply IH, A.
Qed.
Lemma does_wait c states n add : does (ask dev (str c)) P -> match add with Some x => does (send dev x) P | None => True end ->
  does (wait_for dev c states n add) P.
Proof.
  intros A S. unfold wait_for. apply does_bind; [|intros; apply does_ret]. unfold ask_and_wait.
  apply does_bind; [apply does_poll; auto|]. intro x. apply does_bind; [apply does_loop, does_poll; auto|]. intros [t s].
  destruct (t <? 0); [apply does_raise|apply does_ret].
Qed.
End Does.

Section DoesAuto.
Context {D : Type}.
Variable P : event -> Prop.
Lemma does_autoscale n (get_points : io D Z) set_points (get_position get_scale : io D Q) set_position set_scale single read :
  does get_points P -> (forall z, does (set_points z) P) -> does get_position P -> does get_scale P ->
  (forall x, does (set_position x) P) -> (forall x, does (set_scale x) P) -> does single P -> does read P ->
  does (autoscale n get_points set_points get_position get_scale set_position set_scale single read) P.
Proof.
  intros A B C E F G H I. unfold autoscale. apply does_bind; [exact A|]. intro o. apply does_bind; [apply B|]. intros _. apply does_bind.
  - generalize 10%nat. intro k. induction k as [|k IH]; cbn [attempts]; [apply does_ret|].
    apply does_bind; [exact C|]. intro p. apply does_bind; [exact E|]. intro s. apply does_bind; [exact H|]. intros _.
    apply does_bind; [exact I|]. intros [[data lo] hi]. apply does_bind; [apply does_lift|]. intro d. apply does_bind; [apply does_lift|].
    intros [[s' p']|]; [|apply does_ret]. apply does_bind; [apply G|]. intros _. apply does_bind; [apply F|]. intros _. exact IH.
  - intro l. apply does_bind; [apply B|]. intros _. destruct l; [apply does_raise|apply does_ret].
Qed.
End DoesAuto.

Section Commands.
Context {D : Type}.
Variable dev : device D.
Variables (U : event -> Prop) (f : family) (name : pystr).
Let P ev := U ev \/ may_happen f name ev.
Lemma writes_ok c : may_write f name c -> does (send dev c) P.
Proof. intro M. apply does_send. intros r e. split; right; exact M. Qed.
Lemma asks_ok c : may_ask name c -> does (ask dev c) P.
Proof. intro M. apply does_ask. intros r a e. split; right; exact M. Qed.
Lemma fixed c : In c ["ACQUIRE:STATE STOP"; "ACQUIRE:STOPAFTER SEQUENCE"; "ACQUIRE:STATE RUN"; "TRIGGER FORCE";
  "HEADER 1"; "WAVFRM?"; "HEADER 0"]%string -> does (send dev (str c)) P.
Proof. intro J. apply writes_ok. do 4 right. left. apply in_map. exact J. Qed.
Lemma asked c : In (str c) (map str ["HORIZONTAL:RECORDLENGTH?"; "TRIGGER:STATE?"; "ACQUIRE:STATE?"; "ACQUIRE:NUMACQ?"]%string) -> does (ask dev (str c)) P.
Proof. intro J. apply asks_ok. unfold may_ask. cbn [map In] in * . tauto. Qed.
Lemma slept : P Slept. Proof. right. exact Logic.I. Qed.
Lemma single_does cmd n : does cmd P -> does (single dev cmd true n) P.
Proof.
  intro C. unfold single. pose proof slept as SL.
  apply does_bind; [apply fixed; cbn; auto|]. intros _. apply does_bind; [apply does_wait; [exact SL|apply asked; cbn; auto|exact Logic.I]|]. intros _.
  apply does_bind; [apply fixed; cbn; auto|]. intros _. apply does_bind; [apply fixed; cbn; auto|]. intros _. apply does_bind; [exact C|]. intros _.
  apply does_bind; [apply does_wait; [exact SL|apply asked; cbn; auto|apply (fixed "TRIGGER FORCE"); cbn; auto]|]. intros _.
  apply does_bind; [apply does_wait; [exact SL|apply asked; cbn; auto|exact Logic.I]|]. intros _.
  apply does_wait; [exact SL|apply asked; cbn; auto|exact Logic.I].
Qed.
Lemma transferred k v m : In (k, v) (transfer f name) -> m = k ++ str " " ++ v -> does (send dev m) P.
Proof. intros J ->. apply writes_ok. do 5 right. exists k, v. auto. Qed.
Lemma fetch_does : does (fetch dev f name) P.
Proof.
  assert (RC : does (iobind (receive dev) (fun data => iobind (send dev (str "HEADER 0")) (fun _ => ret data))) P).
  { apply does_bind; [apply does_receive; intros; split; right; exact Logic.I|]. intro b. apply does_bind; [apply fixed; cbn; auto 10|]. intros _. apply does_ret. }
  enough (C : forall g, f = g -> does (fetch dev g name) P) by exact (C f eq_refl).
  intros [] EF; cbn [fetch]; unfold fetch_4000, fetch_456.
  - apply does_bind; [apply (transferred (str "SELECT:" ++ name) (str "1")); [rewrite EF; left; reflexivity|reflexivity]|]. intros _.
    apply does_bind; [apply (transferred (str "DATA:SOURCE") name); [rewrite EF; right; left; reflexivity|reflexivity]|]. intros _.
    apply does_bind; [apply (transferred (str "DATA:START") (str "1")); [rewrite EF; do 2 right; left; reflexivity|reflexivity]|]. intros _.
    apply does_bind; [apply (transferred (str "DATA:STOP") (str "1E9")); [rewrite EF; do 3 right; left; reflexivity|reflexivity]|]. intros _.
    apply does_bind; [apply (transferred (str "DATA:WIDTH") (str "1")); [rewrite EF; do 4 right; left; reflexivity|reflexivity]|]. intros _.
    apply does_bind; [apply (transferred (str "DATA:ENCDG") (str "FASTEST")); [rewrite EF; do 5 right; left; reflexivity|reflexivity]|]. intros _.
    apply does_bind; [apply fixed; cbn; auto 10|]. intros _. apply does_bind; [apply fixed; cbn; auto 10|]. intros _. exact RC.
  - apply does_bind.
    { apply (transferred (str "DISPLAY:GLOBAL:" ++ name ++ str ":STATE") (str "1")); [rewrite EF; left; reflexivity|].
      unfold active_456. rewrite <- !app_assoc. reflexivity. }
    intros _.
    apply does_bind; [apply (transferred (str "DATA:SOURCE") name); [rewrite EF; right; left; reflexivity|reflexivity]|]. intros _.
    apply does_bind; [apply (transferred (str "DATA:START") (str "1")); [rewrite EF; do 2 right; left; reflexivity|reflexivity]|]. intros _.
    apply does_bind; [apply (transferred (str "DATA:STOP") (str "1E9")); [rewrite EF; do 3 right; left; reflexivity|reflexivity]|]. intros _.
    apply does_bind; [apply (transferred (str "DATA:WIDTH") (str "2")); [rewrite EF; do 4 right; left; reflexivity|reflexivity]|]. intros _.
    apply does_bind; [apply (transferred (str "DATA:ENCDG") (str "RIBINARY")); [rewrite EF; do 5 right; left; reflexivity|reflexivity]|]. intros _.
    apply does_bind; [apply fixed; cbn; auto 10|]. intros _. apply does_bind; [apply fixed; cbn; auto 10|]. intros _.
    apply does_bind; [apply does_sleep; right; exact Logic.I|]. intros _. exact RC.
Qed.
Lemma points_does z : does (set_time_points dev f z) P.
Proof.
  assert (R : does (set_int dev (str "HORIZONTAL:RECORDLENGTH") z) P) by (apply writes_ok; left; exists z; reflexivity).
  enough (C : forall g, f = g -> does (set_time_points dev g z) P) by exact (C f eq_refl).
  intros [] EF; unfold set_time_points; [exact R|]. apply does_bind; [|intros _; exact R]. apply writes_ok. right. left. auto.
Qed.
Lemma autoscale_does fl uniform utf8 cmd : (forall m, cmd = Some m -> does m U) -> does (autoscale_channel dev fl uniform utf8 f name cmd) P.
Proof.
  intro C. unfold autoscale_channel. apply does_autoscale.
  - apply does_bind; [apply (asked "HORIZONTAL:RECORDLENGTH?"); cbn; auto|]. intro. apply does_lift.
  - apply points_does.
  - apply does_bind; [apply asks_ok; right; left; unfold key_of; rewrite <- app_assoc; reflexivity|]. intro. apply does_lift.
  - apply does_bind; [apply asks_ok; right; right; left; unfold key_of; rewrite <- app_assoc; reflexivity|]. intro. apply does_lift.
  - intro x. apply writes_ok. do 3 right. left. exists x. unfold key_of. rewrite <- app_assoc. reflexivity.
  - intro x. apply writes_ok. do 2 right. left. exists x. unfold key_of. rewrite <- app_assoc. reflexivity.
  - apply single_does. destruct cmd as [m|].
    + intros w res w' E. destruct (C m eq_refl w res w' E) as (evs & L & F). exists evs. split; [exact L|]. eapply Forall_impl; [|exact F]. intros; left; assumption.
    + apply does_sleep. right. exact Logic.I.
  - apply does_bind; [|intro; apply does_ret]. apply does_bind; [apply fetch_does|]. intro. apply does_lift.
Qed.
End Commands.

(** ** Successful runs *)
Section Attempts.
Context {D : Type}.
Variable n_div : Z.
Variable get_position get_scale : io D Q.
Variable set_position set_scale : Q -> io D unit.
Variable single : io D unit.
Variable read : io D (list Q * Q * Q).
Variable Inv : nat -> world D -> Prop.
Hypothesis I_position : forall i w x w', Inv i w -> get_position w = (Ok x, w') -> Inv i w'.
Hypothesis I_scale : forall i w x w', Inv i w -> get_scale w = (Ok x, w') -> Inv i w'.
Hypothesis I_set_position : forall i w x w', Inv i w -> set_position x w = (Ok tt, w') -> Inv i w'.
Hypothesis I_set_scale : forall i w x w', Inv i w -> set_scale x w = (Ok tt, w') -> Inv i w'.
Hypothesis I_single : forall i w w', Inv i w -> single w = (Ok tt, w') -> Inv (S i) w'.
Hypothesis I_read : forall i w x w', Inv i w -> read w = (Ok x, w') -> Inv i w'.
Lemma attempts_ok k : forall i w left w', Inv i w ->
  attempts n_div get_position get_scale set_position set_scale single read k w = (Ok left, w') -> left <> 0%nat ->
  exists j w3 w4 p s data lo hi d, (j + S left = k)%nat /\ Inv (i + j)%nat w3 /\ single w3 = (Ok tt, w4) /\ Inv (S (i + j)) w4 /\
    read w4 = (Ok (data, lo, hi), w') /\ screen data lo hi = Ok d /\ correction n_div p s d = Ok None.
Proof.
  induction k as [|k IH]; intros i w left w' I0; cbn [attempts].
  - unfold ret. intros E N. apply pair_equal_spec in E. destruct E as [E <-]. injection E as <-. contradiction.
  - intros E N. unfold iobind at 1 in E. destruct (get_position w) as [[p|e] w1] eqn:E1; [|discriminate E].
    pose proof (I_position _ _ _ _ I0 E1) as I1.
    unfold iobind at 1 in E. destruct (get_scale w1) as [[s|e] w2] eqn:E2; [|discriminate E]. pose proof (I_scale _ _ _ _ I1 E2) as I2.
    unfold iobind at 1 in E. destruct (single w2) as [[[]|e] w3] eqn:E3; [|discriminate E]. pose proof (I_single _ _ _ I2 E3) as I3.
    unfold iobind at 1 in E. destruct (read w3) as [[[[data lo] hi]|e] w4] eqn:E4; [|discriminate E]. pose proof (I_read _ _ _ _ I3 E4) as I4.
    unfold iobind at 1, lift in E. destruct (screen data lo hi) as [d|e] eqn:E5; [|discriminate E].
    unfold iobind at 1 in E. destruct (correction n_div p s d) as [[[s' p']|]|e] eqn:E6; [| |discriminate E].
    + unfold iobind at 1 in E. destruct (set_scale s' w4) as [[[]|e] w5] eqn:E7; [|discriminate E]. pose proof (I_set_scale _ _ _ _ I4 E7) as I5.
      unfold iobind at 1 in E. destruct (set_position p' w5) as [[[]|e] w6] eqn:E8; [|discriminate E]. pose proof (I_set_position _ _ _ _ I5 E8) as I6.
      destruct (IH _ _ _ _ I6 E N) as (j & w7 & w8 & p7 & s7 & data7 & lo7 & hi7 & d7 & J & A & B & C & F & G & H).
      exists (S j), w7, w8, p7, s7, data7, lo7, hi7, d7.
      split; [lia|]. rewrite Nat.add_succ_r. auto 10.
    + unfold ret in E. apply pair_equal_spec in E. destruct E as [E <-]. injection E as <-.
      exists 0%nat, w2, w3, p, s, data, lo, hi, d. rewrite Nat.add_0_r. split; [lia|]. auto 10.
Qed.
End Attempts.

(** ** The picture *)
Lemma correction_none n p s d lo hi (data : list Q) : ~ (lo == hi)%Q -> screen data lo hi = Ok d -> correction n p s d = Ok None ->
  well_placed (map Q2R data) (Q2R lo) (Q2R hi).
Proof.
  intros NL S C.
  assert (NR : Q2R lo <> Q2R hi) by (intro X; apply NL, eqR_Qeq, X).
  pose proof (screen_hom data lo hi) as SH. rewrite S, screen_ok in SH by exact NR. cbn [rmap] in SH.
  assert (SE : map Q2R d = map (fun y => height (Q2R lo) (Q2R hi) y - 1 / 2)%R (map Q2R data)) by congruence.
  pose proof (correction_hom n p s d) as CH. rewrite C in CH. cbn [rmap option_map] in CH.
  destruct d as [|d0 d]; [discriminate CH|].
  destruct (min_max (map Q2R (d0 :: d)) ltac:(discriminate)) as (A & B & EA & EB & IA & IB & HAB).
  rewrite SE in IA, IB, HAB.
  apply (placed_none (Q2R s) (map Q2R data) (Q2R lo) (Q2R hi) A B NR IA IB HAB).
  destruct (correction_cases n (Q2R p) (Q2R s) _ A B EA EB) as [[_ EN]|[(s' & p' & EC & _)|[EC _]]]; [exact EN| |]; rewrite EC in CH; discriminate CH.
Qed.

Definition volts (pre : preamble Q) (c : Z) : Q := ((nofZ c -. p_yoff pre) *. p_ymult pre +. p_yzero pre)%num.
Lemma volts_R pre c : Q2R (volts pre c) = ((IZR c - Q2R (p_yoff pre)) * Q2R (p_ymult pre) + Q2R (p_yzero pre))%R.
Proof. unfold volts. cbn [nadd nsub nmul nofZ NumQ]. rewrite !Q2R_red, Q2R_plus, Q2R_red, Q2R_mult, Q2R_red, Q2R_minus, Q2R_Z. reflexivity. Qed.
Lemma limit_pos size : 0 < limit size. Proof. unfold limit. destruct (size =? 1); lia. Qed.
Lemma height_code pre m c : (0 < m)%Z -> Q2R (p_ymult pre) <> 0%R ->
  height (Q2R (volts pre (- m))) (Q2R (volts pre m)) (Q2R (volts pre c)) = ((IZR c + IZR m) / (2 * IZR m))%R.
Proof.
  intros P N. unfold height. rewrite !volts_R, opp_IZR. apply IZR_lt in P. field. split; [lra|].
  intro X. assert (Y : (Q2R (p_ymult pre) * (2 * IZR m))%R = 0%R) by lra. apply Rmult_integral in Y. lra.
Qed.
Lemma volts_same pre m : (0 < m)%Z -> ((volts pre (- m) == volts pre m)%Q <-> (p_ymult pre == 0)%Q).
Proof.
  intro P. apply IZR_lt in P. split; intro E.
  - apply eqR_Qeq. apply Qeq_eqR in E. rewrite !volts_R, opp_IZR in E. rewrite RMicromega.Q2R_0.
    assert (Y : (Q2R (p_ymult pre) * (2 * IZR m))%R = 0%R) by lra. apply Rmult_integral in Y. lra.
  - apply eqR_Qeq. apply Qeq_eqR in E. rewrite RMicromega.Q2R_0 in E. rewrite !volts_R, E. lra.
Qed.
Lemma placed_digitised pre m codes : (0 < m)%Z -> ~ (p_ymult pre == 0)%Q ->
  well_placed (map Q2R (map (volts pre) codes)) (Q2R (volts pre (- m))) (Q2R (volts pre m)) -> well_digitised m codes.
Proof.
  intros P N (_ & b & t & Ib & It & H & R).
  assert (NR : Q2R (p_ymult pre) <> 0%R) by (intro X; apply N, eqR_Qeq; rewrite X, RMicromega.Q2R_0; reflexivity).
  rewrite map_map in Ib, It. apply in_map_iff in Ib, It. destruct Ib as (y1 & E1 & I1), It as (y2 & E2 & I2).
  apply in_map_iff in I1, I2. destruct I1 as (c1 & X1 & I1), I2 as (c2 & X2 & I2). subst y1 y2.
  rewrite height_code in E1, E2 by assumption. subst b t.
  assert (PR := IZR_lt _ _ P).
  assert (H' : forall c, In c codes -> c1 <= c <= c2).
  { intros c I. specialize (H (Q2R (volts pre c))). rewrite height_code in H by assumption.
    assert (J : In (Q2R (volts pre c)) (map Q2R (map (volts pre) codes))) by (apply in_map, in_map, I).
    destruct (H J) as [A B]. unfold Rdiv in A, B. split; apply le_IZR.
    - apply Rmult_le_reg_r in A; [lra|]. apply Rinv_0_lt_compat. lra.
    - apply Rmult_le_reg_r in B; [lra|]. apply Rinv_0_lt_compat. lra. }
  exists c1, c2. split; [exact I1|]. split; [exact I2|]. split; [exact H'|].
  set (x := IZR c1) in * ; set (y := IZR c2) in * ; set (z := IZR m) in * .
  assert (EX : forall u, ((u + z) / (2 * z) = u / z / 2 + 1 / 2)%R) by (intro u; field; lra).
  rewrite !EX in R. set (a := (x / z)%R) in * ; set (d := (y / z)%R) in * .
  assert (XA : x = (a * z)%R) by (unfold a; field; lra). assert (YD : y = (d * z)%R) by (unfold d; field; lra).
  destruct R as (R1 & R2 & (R3 & R4) & R5 & R6).
  repeat split; apply le_IZR; rewrite ?opp_IZR, ?mult_IZR, ?minus_IZR, ?plus_IZR; fold x y z; rewrite ?XA, ?YD; nra.
Qed.

(** ** Acquisitions started *)
Section Runs.
Context {D : Type} {dev : device D} {stopped : D -> Prop} {runs : D -> nat} {taken : D -> Z}.
Hypothesis A : ScopeUseSpec.acquires dev stopped runs taken.
Hypothesis RN : reading_starts_none dev runs.
Definition starts_none {X} (m : io D X) : Prop := forall w x w', m w = (Ok x, w') -> w_inst w' = w_inst w /\ runs (w_dev w') = runs (w_dev w).
Lemma none_bind {X Y} (m : io D X) (k : X -> io D Y) : starts_none m -> (forall x, starts_none (k x)) -> starts_none (iobind m k).
Proof.
  intros M K w x w' E. unfold iobind in E. destruct (m w) as [[y|e] w1] eqn:E1; [|discriminate E].
  destruct (M _ _ _ E1) as [I1 R1]. destruct (K _ _ _ _ E) as [I2 R2]. split; congruence.
Qed.
Lemma none_send c : c <> str "ACQUIRE:STATE RUN" -> starts_none (send dev c).
Proof. intros N w [] w' E. destruct (send_runs A _ _ _ N E). auto. Qed.
Lemma none_ask c : starts_none (ask dev c).
Proof. intros w s w' E. destruct (ask_runs A _ _ _ _ E) as (I & R & _). auto. Qed.
Lemma none_receive : starts_none (receive dev).
Proof.
  intros w b w' E. unfold receive, iobind, get_inst, raw_resource, raise in E. destruct (w_inst w) eqn:W; [|discriminate E].
  destruct (dev_raw dev (w_dev w)) as [[x|e] d] eqn:X; [|discriminate E]. apply pair_equal_spec in E. destruct E as [_ <-].
  split; [exact W|exact (RN _ _ _ X)].
Qed.
Lemma none_lift {X} (r : result X) : starts_none (lift r). Proof. intros w x w' E. apply pair_equal_spec in E. destruct E as [_ <-]. auto. Qed.
Lemma none_ret {X} (x : X) : starts_none (ret x). Proof. intros w y w' E. apply pair_equal_spec in E. destruct E as [_ <-]. auto. Qed.
Lemma none_sleep : starts_none (@sleep D). Proof. intros w y w' E. apply pair_equal_spec in E. destruct E as [_ <-]. auto. Qed.
Lemma alias_key c (s : pystr) : alias c ++ s <> str "ACQUIRE:STATE RUN".
Proof. destruct c; discriminate. Qed.
Lemma none_fetch f name : starts_none (fetch dev f name).
Proof.
  assert (RC : starts_none (iobind (receive dev) (fun data => iobind (send dev (str "HEADER 0")) (fun _ => ret data)))).
  { apply none_bind; [apply none_receive|]. intro b. apply none_bind; [apply none_send; discriminate|]. intros _. apply none_ret. }
  destruct f; cbn [fetch]; unfold fetch_4000, fetch_456;
    repeat (apply none_bind; [first [apply none_sleep | apply none_send; discriminate]|intros _]); exact RC.
Qed.
Lemma none_read fl uniform utf8 f name : starts_none (read_vertical dev fl uniform utf8 f name).
Proof. unfold read_vertical, read_waveform. apply none_bind; [|intro; apply none_ret]. apply none_bind; [apply none_fetch|intro; apply none_lift]. Qed.
Lemma none_points f z : starts_none (set_time_points dev f z).
Proof.
  destruct f; unfold set_time_points; [apply none_send; discriminate|]. apply none_bind; [apply none_send; discriminate|]. intros _. apply none_send. discriminate.
Qed.
Lemma single_inst cmd force n w w' : no_restart runs cmd -> single dev cmd force n w = (Ok tt, w') -> w_inst w' = w_inst w.
Proof.
  intros NR E. unfold single in E.
  assert (SI : forall c v v', send dev c v = (Ok tt, v') -> w_inst v' = w_inst v).
  { intros c v v' EV. unfold send, iobind, get_inst, write_resource, raise in EV. destruct (w_inst v) eqn:W; [|discriminate EV].
    destruct (dev_write dev (w_dev v) c) as [rw d']. apply pair_equal_spec in EV. destruct EV as [_ <-]. exact W. }
  assert (WI : forall c states k add v v', no_run add -> wait_for dev c states k add v = (Ok tt, v') -> w_inst v' = w_inst v).
  { intros c states k add v v' NA EV. destruct (wait_runs A _ _ _ _ _ _ NA EV) as [(I & _) _]. exact I. }
  do 7 (apply then_inv in E; let v := fresh "v" in let H := fresh "H" in destruct E as (v & H & E)).
  apply SI in H, H1, H2. apply (WI _ _ _ None _ _ Logic.I) in H0, H5, E. apply NR in H3. destruct H3 as [H3 _].
  apply WI in H4; [|destruct force; [discriminate|exact Logic.I]]. congruence.
Qed.
End Runs.

Lemma screen_flat y data lo hi d : (lo == hi)%Q -> screen (y :: data) lo hi <> Ok d.
Proof.
  intros E. unfold screen. cbn [mapM]. unfold np_div at 1. cbn [neq nofZ NumQ nsub].
  assert (Z : Qeq_bool (Qred (hi - lo)) (inject_Z 0) = true) by (apply Qeq_bool_iff; rewrite Qred_correct, E; ring).
  rewrite Z. discriminate.
Qed.
Section Points.
Context {D : Type} {dev : device D} {sp : list (pystr * pystr)} {reg : D -> pystr -> pystr}.
Hypothesis ST : stores dev sp reg.
Lemma set_points_ok f n z w : w_inst w = Some n -> exists w', set_time_points dev f z w = (Ok tt, w') /\ w_inst w' = Some n /\
  reg (w_dev w') (str "HORIZONTAL:RECORDLENGTH") = str_int z /\
  forall k, k <> str "HORIZONTAL:RECORDLENGTH" -> k <> str "HORIZONTAL:MODE" -> reg (w_dev w') k = reg (w_dev w) k.
Proof.
  intros I. assert (PL : settable (str "HORIZONTAL:RECORDLENGTH")) by (apply settable_str; reflexivity).
  assert (PM : settable (str "HORIZONTAL:MODE")) by (apply settable_str; reflexivity).
  assert (VM : proper (str "MANUAL")) by (apply proper_str; reflexivity).
  destruct f; unfold set_time_points.
  - destruct (send_ok dev sp reg ST n _ (str_int z) w PL (or_introl (word_str_int z)) I) as (w1 & E1 & I1 & R1 & F1).
    exists w1. split; [exact E1|]. split; [exact I1|]. split; [exact R1|]. intros k N _. apply F1, N.
  - destruct (send_ok dev sp reg ST n _ _ w PM VM I) as (w1 & E1 & I1 & R1 & F1).
    destruct (send_ok dev sp reg ST n _ (str_int z) w1 PL (or_introl (word_str_int z)) I1) as (w2 & E2 & I2 & R2 & F2).
    exists w2. split.
    { unfold set_time_points_456, manual, iobind. change (str "HORIZONTAL:MODE MANUAL") with (str "HORIZONTAL:MODE" ++ str " " ++ str "MANUAL").
      rewrite E1. exact E2. }
    split; [exact I2|]. split; [exact R2|]. intros k N1 N2. unfold regs in * ; rewrite F2 by exact N1. apply F1, N2.
Qed.
End Points.
