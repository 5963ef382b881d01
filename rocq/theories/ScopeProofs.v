(** Settings survive on an instrument that stores them. *)
From Coq Require Import String ZArith Bool QArith Qabs Lia Lqa Morphisms List.
Import ListNotations.
From Verif Require Import Base PyStr PyStrProofs StrformatProps ScpiModel ScpiProofs IOModel EquipModel EquipProofs TekModel TekProofs
  ScopeModel ScopeSpec.
Local Open Scope Z_scope.
Local Open Scope list_scope.

(** ** Characters of the texts sent *)
Definition numeric (s : pystr) : Prop := Forall (fun c => c = 43 \/ c = 45 \/ c = 46 \/ c = 69 \/ 48 <= c <= 57) s.
Lemma numeric_dchars ds : digit_list ds -> numeric (dchars ds).
Proof. intros Hd. unfold numeric, dchars. apply Forall_map. eapply Forall_impl; [|exact Hd]. cbv beta. intros a Ha. do 4 right. lia. Qed.
Lemma numeric_str_int n : numeric (str_int n).
Proof.
  unfold str_int. destruct (n <? 0) eqn:E; [apply Z.ltb_lt in E|apply Z.ltb_ge in E].
  - constructor; [lia|]. apply numeric_dchars. apply (digits_spec (- n)); lia.
  - apply numeric_dchars. apply (digits_spec n); lia.
Qed.
Lemma sci_form x : numeric (sci 6 x) /\ In 46 (sci 6 x).
Proof.
  rewrite sci_eq. destruct (sci_parts 6 (Qabs' x)) as [m e] eqn:E. cbn [fst snd].
  destruct (sci_parts_spec 6 (Qabs' x) m e (Qabs'_nonneg x) E) as (Hm & _ & _).
  rewrite mant_eq. split.
  - apply Forall_app. split; [destruct (Qneg x); [constructor; [lia|constructor]|constructor]|].
    apply Forall_app. split.
    + apply Forall_app. split.
      * apply numeric_dchars. apply (digits_spec (m / pow10 6)). apply Z.div_pos; [exact Hm|apply pow10_pos].
      * constructor; [lia|]. apply numeric_dchars. apply (frac_ds_spec 6 m Hm).
    + unfold exp_text. constructor; [lia|]. constructor; [destruct (e <? 0); lia|].
      rewrite lpad_dchars. apply numeric_dchars, digit_list_pad. apply (digits_spec (Z.abs e)). lia.
  - apply in_or_app. right. apply in_or_app. left. apply in_or_app. right. left. reflexivity.
Qed.
Lemma numeric_word s : numeric s -> word s.
Proof. intros N. eapply Forall_impl; [|exact N]. cbn. intros; lia. Qed.
Lemma word_str_int n : word (str_int n). Proof. apply numeric_word, numeric_str_int. Qed.
Lemma word_sci x : word (sci 6 x). Proof. apply numeric_word, sci_form. Qed.
Lemma word_app a b : word a -> word b -> word (a ++ b).
Proof. intros; apply Forall_app; split; assumption. Qed.
Lemma plain_app a b : plain a -> plain b -> plain (a ++ b).
Proof. intros; apply Forall_app; split; assumption. Qed.
Ltac chars := lazymatch goal with |- settable _ => split; [|reflexivity] | _ => idtac end; repeat (constructor; [cbn; lia|]); constructor.
Lemma plain_str_int n : plain (str_int n).
Proof. eapply Forall_impl; [|exact (numeric_str_int n)]. cbn. intros; lia. Qed.
Lemma plain_alias c : plain (alias c).
Proof. destruct c; apply plain_app; try apply plain_str_int; chars. Qed.
Lemma word_alias c : word (alias c).
Proof. destruct c; apply word_app; try apply word_str_int; chars. Qed.
Lemma str_int_inj a b : str_int a = str_int b -> a = b.
Proof. intros E. pose proof (parse_str_int a) as P. rewrite E, parse_str_int in P. congruence. Qed.
Lemma alias_inj c c' : alias c = alias c' -> c = c'.
Proof.
  destruct c, c'; cbn; intros E; try discriminate; injection E as E; apply str_int_inj in E; subst; reflexivity.
Qed.

(** ** Numbers *)
Lemma reads_back_sci fl x v q : Proper (Qeq ==> Qeq) fl -> parse_dec (sci 6 x) = Some v -> (v == q)%Q -> reads_back fl x (fl q).
Proof.
  intros P E Q. exists v. split; [apply P; symmetry; exact Q|]. split.
  - destruct (C32_relative_error x) as (v' & E' & B). rewrite E in E'. injection E' as <-. exact B.
  - intros k j Hk Hx. rewrite <- (Qabs'_abs x) in Hx.
    destruct (C32_seven_digits_exact k j x Hk Hx) as (v' & E' & B). rewrite E in E'. injection E' as <-.
    rewrite B. assert (0 <= inject_Z k * Qpow10 j)%Q as NN.
    { pose proof (Qpow10_pos j). assert (0 <= inject_Z k)%Q by (change 0%Q with (inject_Z 0); rewrite <- Zle_Qle; lia). nra. }
    destruct (Qneg x).
    + rewrite Qabs_Qmult. change (Qabs (- (1))) with 1%Q. rewrite Qabs_pos by exact NN. ring.
    + rewrite Qabs_Qmult. change (Qabs 1) with 1%Q. rewrite Qabs_pos by exact NN. ring.
Qed.

Section Stores.
Context {D : Type}.
Variable dev : device D.
Variable sp : list (pystr * pystr).
Variable reg : D -> pystr -> pystr.
Hypothesis ST : stores dev sp reg.
Variable n : nat.

Definition regs (w : world D) (k : pystr) : pystr := reg (w_dev w) k.
Lemma send_ok k v w : settable k -> proper v -> w_inst w = Some n -> exists w', send dev (k ++ str " " ++ v) w = (Ok tt, w') /\
  w_inst w' = Some n /\ regs w' k = v /\ (forall k', k' <> k -> regs w' k' = regs w k').
Proof.
  intros Pk Pv I. destruct (stores_write _ _ _ ST (w_dev w) k v Pk Pv) as (d & E & R1 & R2).
  unfold send, iobind, get_inst, write_resource. rewrite I, E.
  eexists. split; [reflexivity|]. split; [exact I|]. split; assumption.
Qed.
Lemma ask_ok k w : settable k -> proper (regs w k) -> w_inst w = Some n -> exists r w', ask dev (k ++ str "?") w = (Ok r, w') /\
  w_inst w' = Some n /\ (forall k', regs w' k' = regs w k') /\ shows sp k (regs w k) r.
Proof.
  intros Pk Pv I. destruct (stores_query _ _ _ ST (w_dev w) k Pk Pv) as (d & r & E & R1 & R2).
  unfold ask, iobind, get_inst, query_resource. rewrite I, E.
  eexists _, _. split; [reflexivity|]. split; [exact I|]. split; assumption.
Qed.

(** A sequence of settings. *)
Fixpoint put (l : list (pystr * pystr)) : io D unit :=
  match l with
  | [] => ret tt
  | (k, v) :: l => iobind (send dev (k ++ str " " ++ v)) (fun _ => put l)
  end.
Definition settings_ok (l : list (pystr * pystr)) : Prop := Forall (fun kv => settable (fst kv) /\ proper (snd kv)) l.
Lemma put_ok l : settings_ok l -> NoDup (map fst l) -> forall w, w_inst w = Some n -> exists w', put l w = (Ok tt, w') /\
  w_inst w' = Some n /\ (forall k v, In (k, v) l -> regs w' k = v) /\ (forall k, ~ In k (map fst l) -> regs w' k = regs w k).
Proof.
  induction l as [|[k v] l IH]; intros SO ND w I.
  - exists w. split; [reflexivity|]. split; [exact I|]. split; [intros ? ? []|reflexivity].
  - inversion SO as [|? ? [Pk Pv] SO']; subst. inversion ND as [|? ? NI ND']; subst. cbn [fst snd] in * .
    destruct (send_ok k v w Pk Pv I) as (w1 & E1 & I1 & R1 & F1).
    destruct (IH SO' ND' w1 I1) as (w2 & E2 & I2 & R2 & F2).
    exists w2. cbn [put]. unfold iobind. rewrite E1. split; [exact E2|]. split; [exact I2|]. split.
    + intros k' v' [E|In']; [|apply R2; exact In']. injection E as <- <-. rewrite F2 by exact NI. exact R1.
    + cbn [map fst]. intros k' N. rewrite F2 by (intro; apply N; right; assumption). apply F1. intros ->. apply N. left. reflexivity.
Qed.

(** ** Reading *)
Definition knows (l : list (pystr * pystr)) (w : world D) : Prop :=
  w_inst w = Some n /\ forall k v, In (k, v) l -> regs w k = v.
Lemma ask_knows l k v w : knows l w -> In (k, v) l -> settable k -> proper v ->
  exists r w', ask dev (k ++ str "?") w = (Ok r, w') /\ knows l w' /\ shows sp k v r.
Proof.
  intros [I K] J Pk Pv. pose proof (K k v J) as E. destruct (ask_ok k w Pk) as (r & w' & A & I' & F & S).
  - rewrite E. exact Pv.
  - exact I.
  - exists r, w'. split; [exact A|]. split; [|rewrite E in S; exact S].
    split; [exact I'|]. intros k' v' J'. rewrite F. apply K; exact J'.
Qed.
Hypothesis SP : Forall (fun p => ~ In 46 (fst p)) sp.
Lemma shows_sci k x r : is_switch k = false -> shows sp k (sci 6 x) r -> exists v q, parse_dec (sci 6 x) = Some v /\ parse_dec r = Some q /\ (v == q)%Q.
Proof.
  intros SW. unfold shows. rewrite SW. intros [(t & E & _)|[_ [->|[J|(_ & v & q & E1 & E2 & E3)]]]].
  - exfalso. destruct (sci_form x) as [N _]. rewrite E in N. inversion N; subst. lia.
  - destruct (C32_relative_error x) as (v & E & _). exists v, v. repeat split; exact E || reflexivity.
  - exfalso. rewrite Forall_forall in SP. apply (SP _ J). apply sci_form.
  - exists v, q. auto.
Qed.
Variable fl : Q -> Q.
Hypothesis FL : Proper (Qeq ==> Qeq) fl.
Lemma shows_float k x r : is_switch k = false -> shows sp k (sci 6 x) r -> exists y, to_float fl r = Ok y /\ reads_back fl x y.
Proof.
  intros SW S. destruct (shows_sci k x r SW S) as (v & q & E1 & E2 & E3). exists (fl q). unfold to_float. rewrite E2.
  split; [reflexivity|]. eapply reads_back_sci; eauto.
Qed.
Lemma shows_threshold k x r : is_switch k = false -> shows sp k (sci 6 x) r -> exists y, parse_threshold (to_float fl) r = Ok y /\ reads_back fl x y.
Proof.
  intros SW S. destruct (shows_sci k x r SW S) as (v & q & E1 & E2 & E3). destruct (shows_float k x r SW S) as (y & F & R).
  exists y. split; [|exact R]. unfold parse_threshold.
  destruct (str_eqb r (str "ECL")) eqn:A; [apply str_eqb_eq in A; subst; discriminate E2|].
  destruct (str_eqb r (str "TTL")) eqn:B; [apply str_eqb_eq in B; subst; discriminate E2|]. exact F.
Qed.
Lemma get_float_knows l k x w : knows l w -> In (k, sci 6 x) l -> settable k -> is_switch k = false ->
  exists y w', get_float dev fl k w = (Ok y, w') /\ knows l w' /\ reads_back fl x y.
Proof.
  intros K J P SW. destruct (ask_knows l k _ w K J P (or_introl (word_sci x))) as (r & w' & E & K' & S).
  destruct (shows_float k x r SW S) as (y & F & R). exists y, w'. unfold get_float, iobind, lift. rewrite E, F. auto.
Qed.
Lemma get_int_knows l k i w : knows l w -> In (k, str_int i) l -> settable k -> is_switch k = false -> (forall r, ~ In (str_int i, r) sp) ->
  exists w', get_int dev k w = (Ok i, w') /\ knows l w'.
Proof.
  intros K J P SW NS. destruct (ask_knows l k _ w K J P (or_introl (word_str_int i))) as (r & w' & E & K' & S).
  exists w'. unfold get_int, iobind, lift. rewrite E. split; [|exact K'].
  unfold shows in S. rewrite SW in S. destruct S as [(t & E' & _)|[_ [->|[J'|(H46 & _)]]]].
  - exfalso. pose proof (numeric_str_int i) as N. rewrite E' in N. inversion N; subst. lia.
  - unfold to_int. rewrite parse_str_int. reflexivity.
  - destruct (NS _ J').
  - exfalso. unfold str_int in H46.
    assert (forall m, 0 <= m -> ~ In 46 (dchars (digits m))) as ND.
    { intros m Hm I. destruct (digits_spec m Hm) as (DL & _). unfold dchars in I. apply in_map_iff in I. destruct I as (d & Ed & Id).
      unfold digit_list in DL. rewrite Forall_forall in DL. specialize (DL d Id). cbn in DL. lia. }
    destruct (i <? 0) eqn:Ei; [apply Z.ltb_lt in Ei|apply Z.ltb_ge in Ei].
    + destruct H46 as [A|A]; [discriminate A|]. apply (ND (- i)); [lia|exact A].
    + apply (ND i); [lia|exact H46].
Qed.
End Stores.
