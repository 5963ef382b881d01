From Coq Require Import String ZArith Bool List Lia.
Import ListNotations.
From Verif Require Import Base PyStr ScpiModel ScpiProofs IOModel EquipModel EquipSpec EquipProofs.
Local Open Scope Z_scope.

(** ** Registry and dispatch *)
Section Dispatch.
Variable driver : Type.
Variable re_match : pystr -> pystr -> result bool.
Notation reg := (registry driver).
Lemma dispatch_first (r : reg) id d : dispatch driver re_match r id = Ok d <-> first_match re_match r id d.
Proof.
  induction r as [|[k d0] r IH]; cbn.
  - split; [discriminate|]. intros (b & k & a & E & _). destruct b; discriminate E.
  - destruct (re_match k id) as [[]|e] eqn:M.
    + split.
      * intro H. injection H as <-. exists [], k, r. refine (conj eq_refl (conj M _)). intros ? ? [].
      * intros (b & k' & a & E & M' & N). destruct b as [|[k1 d1] b].
        -- injection E as <- <- _. reflexivity.
        -- injection E as <- <- _. specialize (N k d0 (or_introl eq_refl)). congruence.
    + rewrite IH. split.
      * intros (b & k' & a & -> & M' & N). exists ((k, d0) :: b), k', a. refine (conj eq_refl (conj M' _)).
        intros k1 d1 [X|X]; [injection X as <- <-; exact M|exact (N _ _ X)].
      * intros (b & k' & a & E & M' & N). destruct b as [|[k1 d1] b].
        -- injection E as <- <- _. congruence.
        -- injection E as <- <- ->. exists b, k', a. refine (conj eq_refl (conj M' _)). intros k1 d1 X. exact (N _ _ (or_intror X)).
    + split; [discriminate|]. intros (b & k' & a & E & M' & N). destruct b as [|[k1 d1] b].
      * injection E as <- <- _. congruence.
      * injection E as <- <- _. specialize (N k d0 (or_introl eq_refl)). congruence.
Qed.
Lemma dispatch_none (r : reg) id : no_match re_match r id -> dispatch driver re_match r id = Err LookupError.
Proof.
  induction r as [|[k d0] r IH]; intro N; cbn; [reflexivity|]. rewrite (N k d0 (or_introl eq_refl)).
  apply IH. intros k1 d1 X. exact (N _ _ (or_intror X)).
Qed.
Lemma dispatch_lookup (r : reg) id : (forall k, re_match k id <> Err LookupError) ->
  dispatch driver re_match r id = Err LookupError -> no_match re_match r id.
Proof.
  intro R. induction r as [|[k d0] r IH]; intros H k1 d1 I; cbn in *; [destruct I|].
  destruct (re_match k id) as [[]|e] eqn:M; try discriminate.
  - destruct I as [I|I]; [injection I as <- <-; exact M|exact (IH H _ _ I)].
  - injection H as ->. destruct (R k M).
Qed.
Lemma register_keys (r : reg) k d : map fst (register driver r k d) = if existsb (str_eqb k) (map fst r) then map fst r else map fst r ++ [k].
Proof.
  induction r as [|[k0 d0] r IH]; cbn; [reflexivity|].
  destruct (str_eqb k0 k) eqn:E.
  - apply str_eqb_eq in E. subst k0. rewrite str_eqb_refl. reflexivity.
  - assert (X : str_eqb k k0 = false).
    { destruct (str_eqb k k0) eqn:Y; [|reflexivity]. apply str_eqb_eq in Y. subst. rewrite str_eqb_refl in E. discriminate. }
    rewrite X. cbn. rewrite IH. destruct (existsb _ _); reflexivity.
Qed.
Lemma register_in (r : reg) k d k' d' : NoDup (map fst r) ->
  In (k', d') (register driver r k d) <-> (k' = k /\ d' = d) \/ (k' <> k /\ In (k', d') r).
Proof.
  induction r as [|[k0 d0] r IH]; cbn; intro N.
  - split; [intros [E|[]]; injection E as <- <-; left; split; reflexivity|intros [[-> ->]|[_ []]]; left; reflexivity].
  - inversion_clear N as [|? ? NI N']. destruct (str_eqb k0 k) eqn:E.
    + apply str_eqb_eq in E. subst k0. cbn. split.
      * intros [X|X]; [injection X as <- <-; left; split; reflexivity|]. right. split; [|right; exact X].
        intros ->. apply NI. exact (in_map fst _ _ X).
      * intros [[-> ->]|[X [Y|Y]]]; [left; reflexivity| |right; exact Y]. injection Y as <- <-. destruct (X eq_refl).
    + cbn. rewrite (IH N'). assert (NE : k0 <> k) by (intros ->; rewrite str_eqb_refl in E; discriminate). split.
      * intros [X|[X|[X Y]]]; [injection X as <- <-; right; split; [exact NE|left; reflexivity]|left; exact X|right; split; [exact X|right; exact Y]].
      * intros [X|[X [Y|Y]]]; [right; left; exact X|left; exact Y|right; right; split; assumption].
Qed.
Lemma register_nodup (r : reg) k d : NoDup (map fst r) -> NoDup (map fst (register driver r k d)).
Proof.
  intro N. rewrite register_keys. destruct (existsb (str_eqb k) (map fst r)) eqn:E; [exact N|].
  assert (NI : ~ In k (map fst r)).
  { intro I. assert (X : existsb (str_eqb k) (map fst r) = true) by (apply existsb_exists; exists k; split; [exact I|apply str_eqb_refl]). congruence. }
  clear E. induction (map fst r) as [|x l IH]; cbn; [constructor; [intros []|constructor]|].
  inversion_clear N as [|? ? N1 N2]. constructor.
  - intro I. apply in_app_or in I. destruct I as [I|[<-|[]]]; [exact (N1 I)|]. apply NI. left. reflexivity.
  - apply IH; [exact N2|]. intro I. apply NI. right. exact I.
Qed.
End Dispatch.

(** ** connect *)
Section Connect.
Context {D : Type}.
Variable dev : device D.
Variable driver : Type.
Variable re_match : pystr -> pystr -> result bool.
Variable new_driver : driver -> pystr -> io D unit.

Definition idn : pystr := str "*IDN?".
(** How the probing of the address can go; the events are those between
    opening and closing. *)
Lemma probe_spec address w res w' : probe dev address w = (res, w') ->
  (exists e, res = Err e /\ w_log w' = w_log w /\ w_inst w' = w_inst w /\ w_next w' = w_next w) \/
  (exists mid last, w_log w' = w_log w ++ [Opened (w_next w)] ++ mid ++ [last] /\ w_inst w' = w_inst w /\ w_next w' = S (w_next w) /\
     (last = Closed (w_next w) \/ exists e, last = CloseFailed (w_next w) e /\ res = Err e) /\
     ((exists reply, mid = [Wrote (w_next w) idn; Queried (w_next w) idn reply] /\ (last = Closed (w_next w) -> res = Ok (strip reply))) \/
      (exists e, (mid = [WriteFailed (w_next w) idn e] \/ mid = [Wrote (w_next w) idn; QueryFailed (w_next w) idn e]) /\
                 (last = Closed (w_next w) -> res = Err e)) \/
      (mid = [] /\ (last = Closed (w_next w) -> res = Err NotImplementedError)))).
Proof.
  intro E. unfold probe, iobind, open_resource in E. destruct (dev_open dev (w_dev w) address) as [[mb|e] d].
  2:{ injection E as <- <-. left. exists e. repeat split. }
  right. cbn [fst snd] in E. unfold finally in E. destruct mb.
  - unfold iobind, write_resource, query_resource, ret in E. cbn [w_dev w_next w_log w_inst] in E.
    destruct (dev_write dev d (str "*IDN?")) as [[[]|e] d1].
    + cbn [w_dev w_next w_log w_inst] in E. destruct (dev_query dev d1 (str "*IDN?")) as [[a|e] d2]; unfold close_resource in E; cbn [w_dev w_next w_log w_inst] in E;
        destruct (dev_close dev d2) as [[[]|e'] d3]; injection E as <- <-; cbn [w_dev w_next w_log w_inst].
      * exists [Wrote (w_next w) idn; Queried (w_next w) idn a], (Closed (w_next w)). split; [rewrite <- !app_assoc; reflexivity|].
        refine (conj eq_refl (conj eq_refl (conj (or_introl eq_refl) _))). left. exists a. split; reflexivity.
      * exists [Wrote (w_next w) idn; Queried (w_next w) idn a], (CloseFailed (w_next w) e'). split; [rewrite <- !app_assoc; reflexivity|].
        refine (conj eq_refl (conj eq_refl (conj (or_intror _) _))); [exists e'; split; reflexivity|]. left. exists a. split; [reflexivity|discriminate].
      * exists [Wrote (w_next w) idn; QueryFailed (w_next w) idn e], (Closed (w_next w)). split; [rewrite <- !app_assoc; reflexivity|].
        refine (conj eq_refl (conj eq_refl (conj (or_introl eq_refl) _))). right. left. exists e. split; [right; reflexivity|reflexivity].
      * exists [Wrote (w_next w) idn; QueryFailed (w_next w) idn e], (CloseFailed (w_next w) e'). split; [rewrite <- !app_assoc; reflexivity|].
        refine (conj eq_refl (conj eq_refl (conj (or_intror _) _))); [exists e'; split; reflexivity|]. right. left. exists e. split; [right; reflexivity|discriminate].
    + unfold close_resource in E; cbn [w_dev w_next w_log w_inst] in E.
      destruct (dev_close dev d1) as [[[]|e'] d3]; injection E as <- <-; cbn [w_dev w_next w_log w_inst].
      * exists [WriteFailed (w_next w) idn e], (Closed (w_next w)). split; [rewrite <- !app_assoc; reflexivity|].
        refine (conj eq_refl (conj eq_refl (conj (or_introl eq_refl) _))). right. left. exists e. split; [left; reflexivity|reflexivity].
      * exists [WriteFailed (w_next w) idn e], (CloseFailed (w_next w) e'). split; [rewrite <- !app_assoc; reflexivity|].
        refine (conj eq_refl (conj eq_refl (conj (or_intror _) _))); [exists e'; split; reflexivity|]. right. left. exists e. split; [left; reflexivity|discriminate].
  - unfold raise, close_resource in E; cbn [w_dev w_next w_log w_inst] in E.
    destruct (dev_close dev d) as [[[]|e'] d3]; injection E as <- <-; cbn [w_dev w_next w_log w_inst].
    + exists [], (Closed (w_next w)). split; [rewrite <- !app_assoc; reflexivity|].
      refine (conj eq_refl (conj eq_refl (conj (or_introl eq_refl) _))). right. right. split; reflexivity.
    + exists [], (CloseFailed (w_next w) e'). split; [rewrite <- !app_assoc; reflexivity|].
      refine (conj eq_refl (conj eq_refl (conj (or_intror _) _))); [exists e'; split; reflexivity|]. right. right. split; [reflexivity|discriminate].
Qed.
Lemma connect_probed reg address w w1 identity : probe dev address w = (Ok identity, w1) ->
  connect dev driver re_match new_driver reg address w =
  match dispatch driver re_match reg identity with
  | Err e => (Err e, w1)
  | Ok d => match new_driver d address w1 with
            | (Ok _, w2) => (Ok d, w2)
            | (Err e, w2) => (Err e, w2)
            end
  end.
Proof. intro P. unfold connect, iobind, lift. rewrite P. destruct (dispatch _ _ _ _); [|reflexivity]. destruct (new_driver _ _ _) as [[]]; reflexivity. Qed.
Lemma connect_failed reg address w w1 e : probe dev address w = (Err e, w1) ->
  connect dev driver re_match new_driver reg address w = (Err e, w1).
Proof. intro P. unfold connect, iobind. rewrite P. reflexivity. Qed.
End Connect.

(** ** Regular expressions *)
Section Regex.
Variable digit : Z -> bool.
Hypothesis ascii : ascii_digits digit.
Notation rests := (rests digit).
Lemma matches_in r s : matches digit r s = true <-> exists t, In t (rests r s).
Proof.
  unfold matches. destruct (rests r s) as [|t l]; split; intro H; try discriminate; try reflexivity.
  - destruct H as [? []].
  - exists t. left. reflexivity.
Qed.
Lemma in_chr c s t : In t (rests (Chr c) s) <-> s = c :: t.
Proof.
  cbn. destruct s as [|x s]; [split; [intros []|discriminate]|]. destruct (Z.eqb_spec x c) as [->|N].
  - split; [intros [->|[]]; reflexivity|intro H; injection H as ->; left; reflexivity].
  - split; [intros []|intro H; injection H as -> ->; destruct (N eq_refl)].
Qed.
Lemma in_digit s t : In t (rests Digit s) <-> exists x, digit x = true /\ s = x :: t.
Proof.
  cbn. destruct s as [|x s]; [split; [intros []|intros (? & _ & H); discriminate]|]. destruct (digit x) eqn:E.
  - split; [intros [->|[]]; exists x; split; [exact E|reflexivity]|intros (y & _ & H); injection H as _ ->; left; reflexivity].
  - split; [intros []|intros (y & Y & H); injection H as -> ->; congruence].
Qed.
Lemma in_cat a b s t : In t (rests (Cat a b) s) <-> exists u, In u (rests a s) /\ In t (rests b u).
Proof. cbn. apply in_flat_map. Qed.
Lemma in_alt a b s t : In t (rests (Alt a b) s) <-> In t (rests a s) \/ In t (rests b s).
Proof. cbn. apply in_app_iff. Qed.
Lemma in_empty s t : In t (rests Empty s) <-> s = t.
Proof. cbn. split; [intros [->|[]]; reflexivity|intros ->; left; reflexivity]. Qed.
Lemma in_chars l : forall s t, In t (rests (fold_right Cat Empty (map Chr l)) s) <-> s = l ++ t.
Proof.
  induction l as [|c l IH]; intros s t; cbn [map fold_right app]; [apply in_empty|].
  rewrite in_cat. split.
  - intros (u & U & T). apply in_chr in U. apply IH in T. subst. reflexivity.
  - intros ->. exists (l ++ t). split; [apply in_chr; reflexivity|apply IH; reflexivity].
Qed.
Lemma in_lit x s t : In t (rests (lit x) s) <-> s = str x ++ t.
Proof. apply in_chars. Qed.
Lemma in_opt x s t : In t (rests (Opt (lit x)) s) <-> s = str x ++ t \/ s = t.
Proof. unfold Opt. rewrite in_alt, in_lit, in_empty. reflexivity. Qed.
Lemma in_eos s t : In t (rests Eos s) <-> s = t /\ (s = [] \/ s = [10]).
Proof.
  cbn. destruct s as [|x [|y s]].
  - split; [intros [<-|[]]; split; [reflexivity|left; reflexivity]|intros [<- _]; left; reflexivity].
  - destruct (Z.eqb_spec x 10) as [->|N].
    + split; [intros [<-|[]]; split; [reflexivity|right; reflexivity]|intros [<- _]; left; reflexivity].
    + split; [intros []|]. intros [_ [X|X]]; [discriminate|injection X as ->; destruct (N eq_refl)].
  - split; [intros []|]. intros [_ [X|X]]; discriminate.
Qed.
Lemma dots_all s : In s (rests Dots s).
Proof. cbn. destruct s as [|x s]; [left; reflexivity|]. destruct (x =? 10); [left; reflexivity|]. apply in_or_app. right. left. reflexivity. Qed.

(** The body of the 4000 series patterns. *)
Definition body4000 : re :=
  alt [seqr [lit "MDO"; alt [lit "3"; lit "4"]; Digit; Digit; Digit]; seqr [lit "MSO4"; Digit; Digit; Digit]; seqr [lit "DPO4"; Digit; Digit; Digit]].
Lemma in_seq_cons a l s t : In t (rests (seqr (a :: l)) s) <-> exists u, In u (rests a s) /\ In t (rests (seqr l) u).
Proof. apply in_cat. Qed.
Lemma in_seq_nil s t : In t (rests (seqr []) s) <-> s = t. Proof. apply in_empty. Qed.
Ltac inv :=
  repeat match goal with
  | H : exists _, _ |- _ => destruct H
  | H : _ /\ _ |- _ => destruct H
  | H : _ \/ _ |- _ => destruct H
  | H : In _ (rests (lit _) _) |- _ => apply in_lit in H
  | H : In _ (rests Digit _) |- _ => apply in_digit in H
  | H : In _ (rests (Opt (lit _)) _) |- _ => apply in_opt in H
  | H : In _ (rests (Opt _) _) |- _ => unfold Opt in H
  | H : In _ (rests Eos _) |- _ => apply in_eos in H
  | H : In _ (rests Empty _) |- _ => apply in_empty in H
  | H : In _ (rests (seqr []) _) |- _ => apply in_seq_nil in H
  | H : In _ (rests (seqr (_ :: _)) _) |- _ => apply in_seq_cons in H
  | H : In _ (rests (alt [_]) _) |- _ => unfold alt in H
  | H : In _ (rests (alt (_ :: _)) _) |- _ => cbn [alt] in H
  | H : In _ (rests (Alt _ _) _) |- _ => apply in_alt in H
  end.
Ltac mk :=
  repeat match goal with
  | |- In ?t (rests (Opt (lit _)) _) => apply in_opt
  | |- In ?t (rests (lit _) _) => apply in_lit
  | |- In ?t (rests Eos _) => apply in_eos
  | |- In ?t (rests (seqr []) _) => apply in_seq_nil
  end.
Definition series4000 : list pystr := [str "MDO3"; str "MDO4"; str "MSO4"; str "DPO4"].
Lemma in_body4000 s t : In t (rests body4000 s) <->
  exists series a b c, In series series4000 /\ digit a = true /\ digit b = true /\ digit c = true /\ s = series ++ [a; b; c] ++ t.
Proof.
  unfold body4000. split.
  - intro H. inv; subst.
    + exists (str "MDO3"). do 3 eexists. refine (conj _ (conj _ (conj _ (conj _ eq_refl)))); [left; reflexivity|eassumption..].
    + exists (str "MDO4"). do 3 eexists. refine (conj _ (conj _ (conj _ (conj _ eq_refl)))); [right; left; reflexivity|eassumption..].
    + exists (str "MSO4"). do 3 eexists. refine (conj _ (conj _ (conj _ (conj _ eq_refl)))); [right; right; left; reflexivity|eassumption..].
    + exists (str "DPO4"). do 3 eexists. refine (conj _ (conj _ (conj _ (conj _ eq_refl)))); [right; right; right; left; reflexivity|eassumption..].
  - intros (series & a & b & c & I & A & B & C & ->).
    assert (DG : In t (rests (seqr [Digit; Digit; Digit]) ([a; b; c] ++ t))).
    { apply in_seq_cons. exists ([b; c] ++ t). split; [apply in_digit; exists a; split; [exact A|reflexivity]|].
      apply in_seq_cons. exists ([c] ++ t). split; [apply in_digit; exists b; split; [exact B|reflexivity]|].
      apply in_seq_cons. exists t. split; [apply in_digit; exists c; split; [exact C|reflexivity]|]. apply in_seq_nil. reflexivity. }
    cbn [alt]. rewrite !in_alt. destruct I as [<-|[<-|[<-|[<-|[]]]]].
    + left. apply in_seq_cons. exists (str "3" ++ [a; b; c] ++ t). split; [apply in_lit; reflexivity|].
      apply in_seq_cons. exists ([a; b; c] ++ t). split; [|exact DG]. cbn [alt]. rewrite in_alt. left. apply in_lit. reflexivity.
    + left. apply in_seq_cons. exists (str "4" ++ [a; b; c] ++ t). split; [apply in_lit; reflexivity|].
      apply in_seq_cons. exists ([a; b; c] ++ t). split; [|exact DG]. cbn [alt]. rewrite in_alt. right. apply in_lit. reflexivity.
    + right. left. apply in_seq_cons. exists ([a; b; c] ++ t). split; [apply in_lit; reflexivity|exact DG].
    + right. right. apply in_seq_cons. exists ([a; b; c] ++ t). split; [apply in_lit; reflexivity|exact DG].
Qed.
Lemma match4000 s : matches digit re_mso4000 s = true <-> exists m rest, model4000 digit m /\ s = identity_of m rest.
Proof.
  rewrite matches_in. unfold re_mso4000. fold body4000. split.
  - intros (t & H). apply in_seq_cons in H. destruct H as (u & U & H). apply in_lit in U.
    apply in_seq_cons in H. destruct H as (v & V & H). apply in_body4000 in V. destruct V as (series & a & b & c & I & A & B & C & ->).
    apply in_seq_cons in H. destruct H as (x & X & H). apply in_opt in X. apply in_seq_cons in H. destruct H as (y & Y & H). apply in_lit in Y. subst s x.
    destruct X as [-> | ->].
    + exists (series ++ [a; b; c] ++ str "B"), y. split; [constructor; try assumption; right; left; reflexivity|].
      unfold identity_of. rewrite <- !app_assoc. reflexivity.
    + exists (series ++ [a; b; c] ++ str ""), y. split; [constructor; try assumption; left; reflexivity|].
      unfold identity_of. rewrite <- !app_assoc. reflexivity.
  - intros (m & rest & [series a b c suffix I A B C SF] & ->). exists rest.
    apply in_seq_cons. exists ((series ++ [a; b; c] ++ suffix) ++ str "," ++ rest). split; [apply in_lit; reflexivity|].
    apply in_seq_cons. exists (suffix ++ str "," ++ rest). split; [apply in_body4000; exists series, a, b, c; repeat (split; try assumption); rewrite <- !app_assoc; reflexivity|].
    apply in_seq_cons. exists (str "," ++ rest). split; [apply in_opt; destruct SF as [<-|[<-|[]]]; [right|left]; reflexivity|].
    apply in_seq_cons. exists rest. split; [apply in_lit; reflexivity|].
    apply in_seq_cons. exists rest. split; [apply dots_all|apply in_seq_nil; reflexivity].
Qed.
Lemma match456 s : matches digit re_mso456 s = true <-> exists m rest, model456_pattern digit m /\ s = identity_of m rest.
Proof.
  rewrite matches_in. unfold re_mso456. split.
  - intros (t & H). apply in_seq_cons in H. destruct H as (u & U & H). apply in_lit in U.
    apply in_seq_cons in H. destruct H as (v & V & H). apply in_seq_cons in H. destruct H as (x & X & _). apply in_lit in X. subst s v.
    assert (G : exists m, model456_pattern digit m /\ u = m ++ str "," ++ x).
    { inv; subst.
      all: try (eexists; split; [eapply (Model456 digit (str "MSO4") _ (str "B"))|cbn; reflexivity]; cbn; tauto || eassumption).
      all: try (eexists; split; [eapply (Model456 digit (str "MSO4") _ (str "LP"))|cbn; reflexivity]; cbn; tauto || eassumption).
      all: try (eexists; split; [eapply (Model456 digit (str "MSO4") _ (str ""))|cbn; reflexivity]; cbn; tauto || eassumption).
      all: try (eexists; split; [eapply (Model456 digit (str "MSO5") _ (str "B"))|cbn; reflexivity]; cbn; tauto || eassumption).
      all: try (eexists; split; [eapply (Model456 digit (str "MSO5") _ (str "LP"))|cbn; reflexivity]; cbn; tauto || eassumption).
      all: try (eexists; split; [eapply (Model456 digit (str "MSO5") _ (str ""))|cbn; reflexivity]; cbn; tauto || eassumption).
      all: try (eexists; split; [eapply (Model456 digit (str "MSO6") _ (str "B"))|cbn; reflexivity]; cbn; tauto || eassumption).
      all: try (eexists; split; [eapply (Model456 digit (str "MSO6") _ (str "LP"))|cbn; reflexivity]; cbn; tauto || eassumption).
      all: try (eexists; split; [eapply (Model456 digit (str "MSO6") _ (str ""))|cbn; reflexivity]; cbn; tauto || eassumption).
      exists (str "LPD64"). split; [constructor|reflexivity]. }
    destruct G as (m & M & ->). exists m, x. split; [exact M|reflexivity].
  - intros (m & rest & M & ->). exists rest.
    apply in_seq_cons. exists (m ++ str "," ++ rest). split; [apply in_lit; reflexivity|].
    apply in_seq_cons. exists (str "," ++ rest). split.
    + destruct M as [series a suffix I A SF|].
      * cbn [alt]. rewrite in_alt. left. apply in_seq_cons.
        assert (G : exists z, series = str "MSO" ++ z /\ In ([a] ++ suffix ++ str "," ++ rest) (rests (alt [lit "4"; lit "5"; lit "6"]) (z ++ [a] ++ suffix ++ str "," ++ rest))).
        { cbn [alt]. destruct I as [<-|[<-|[<-|[]]]]; [exists (str "4")|exists (str "5")|exists (str "6")]; (split; [reflexivity|]); rewrite !in_alt, !in_lit; auto. }
        destruct G as (z & -> & Z). exists (z ++ [a] ++ suffix ++ str "," ++ rest). split; [apply in_lit; rewrite <- !app_assoc; reflexivity|].
        apply in_seq_cons. eexists. split; [exact Z|]. apply in_seq_cons. exists (suffix ++ str "," ++ rest). split; [apply in_digit; exists a; split; [exact A|reflexivity]|].
        apply in_seq_cons. exists (str "," ++ rest). split; [|apply in_seq_nil; reflexivity].
        unfold Opt. cbn [alt]. rewrite !in_alt, !in_lit, in_empty. destruct SF as [<-|[<-|[<-|[]]]]; auto.
      * cbn [alt]. rewrite in_alt. right. apply in_lit. reflexivity.
    + apply in_seq_cons. exists rest. split; [apply in_lit; reflexivity|].
      apply in_seq_cons. exists rest. split; [apply dots_all|apply in_seq_nil; reflexivity].
Qed.
Lemma digit_ge c : digit c = true -> 48 <= c <= 57 \/ 128 <= c.
Proof.
  intro H. destruct (Z_lt_le_dec c 128) as [L|L]; [|right; exact L]. left. rewrite (ascii c L) in H.
  apply andb_prop in H. destruct H as [A B]. apply Z.leb_le in A, B. lia.
Qed.
Lemma model4000_no_comma m : model4000 digit m -> ~ In 44 m.
Proof.
  intros [series a b c suffix I A B C SF] J. apply digit_ge in A, B, C. apply in_app_or in J. destruct J as [J|J].
  - cbn in I. intuition subst; cbn in J; intuition discriminate.
  - apply in_app_or in J. destruct J as [J|J]; [cbn in J; intuition (subst; lia)|]. cbn in SF. intuition subst; cbn in J; intuition discriminate.
Qed.
Lemma model456_no_comma m : model456_pattern digit m -> ~ In 44 m.
Proof.
  intros [series a suffix I A SF|] J.
  - apply digit_ge in A. apply in_app_or in J. destruct J as [J|J].
    + cbn in I. intuition subst; cbn in J; intuition discriminate.
    + apply in_app_or in J. destruct J as [J|J]; [cbn in J; intuition (subst; lia)|]. cbn in SF. intuition subst; cbn in J; intuition discriminate.
  - cbn in J. intuition discriminate.
Qed.
Lemma models_disjoint m : model4000 digit m -> model456_pattern digit m -> False.
Proof.
  intros [series a b c suffix I A B C SF] M. inversion M as [s2 a2 suf2 I2 A2 SF2 E|E].
  - apply digit_ge in A, B, C, A2. cbn in I, I2, SF, SF2.
    assert (X : series = str "MSO4" \/ series <> str "MSO4" /\ hd_error series <> Some 77 \/ series = str "MDO3" \/ series = str "MDO4").
    { destruct I as [<-|[<-|[<-|[<-|[]]]]]; auto. right. left. split; discriminate. }
    destruct I as [<-|[<-|[<-|[<-|[]]]]]; destruct I2 as [<-|[<-|[<-|[]]]]; try discriminate E.
    destruct SF2 as [<-|[<-|[<-|[]]]]; cbn in E; inversion E; subst; try lia; try (destruct SF as [<-|[<-|[]]]; discriminate).
  - cbn in I. destruct I as [<-|[<-|[<-|[<-|[]]]]]; discriminate E.
Qed.
Lemma identity_inj m m' rest rest' : ~ In 44 m -> ~ In 44 m' -> identity_of m rest = identity_of m' rest' -> m = m' /\ rest = rest'.
Proof.
  unfold identity_of. intros N N' E. apply app_inv_head in E.
  assert (X := split1_app 44 m rest N). assert (X' := split1_app 44 m' rest' N').
  change (m ++ str "," ++ rest) with (m ++ 44 :: rest) in E. change (m' ++ str "," ++ rest') with (m' ++ 44 :: rest') in E.
  rewrite E, X' in X. injection X as -> ->. split; reflexivity.
Qed.
Lemma patterns_exclusive s : matches digit re_mso4000 s = true -> matches digit re_mso456 s = true -> False.
Proof.
  intros A B. apply match4000 in A. apply match456 in B. destruct A as (m & r & M & ->). destruct B as (m' & r' & M' & E).
  destruct (identity_inj _ _ _ _ (model4000_no_comma _ M) (model456_no_comma _ M') E) as [-> _]. exact (models_disjoint _ M M').
Qed.
(** ** The check of the family constructors *)
Lemma check_model r m rest : ~ In 44 m -> check_identity digit r (identity_of m rest) = if matches digit r m then Ok tt else Err ValueError.
Proof.
  intro N. unfold check_identity.
  assert (S : startswith (str "TEKTRONIX,") (identity_of m rest) = true) by (apply startswith_spec; eexists; reflexivity). rewrite S.
  assert (E : split_on 44 (identity_of m rest) = str "TEKTRONIX" :: m :: split_on 44 rest).
  { change (identity_of m rest) with (str "TEKTRONIX" ++ 44 :: (m ++ 44 :: rest)).
    rewrite split_on_app; [rewrite split_on_app by exact N; reflexivity|]. cbn. intuition discriminate. }
  rewrite E. reflexivity.
Qed.
Definition model_re4000 : re := re_model4000.
Lemma family4000 m : (forall m', m <> m' ++ [10]) -> matches digit re_model4000 m = true <-> model4000 digit m.
Proof.
  intro N. rewrite matches_in. unfold re_model4000. split.
  - intros (t & H). inv; subst.
    all: try match goal with |- model4000 _ ?m => match m with context [[10]] => exfalso; eapply (N (removelast m)); cbn; reflexivity end end.
    all: try (eapply (Model4000 digit (str "MDO3") _ _ _ (str "B")); cbn; tauto || eassumption).
    all: try (eapply (Model4000 digit (str "MDO3") _ _ _ (str "")); cbn; tauto || eassumption).
    all: try (eapply (Model4000 digit (str "MDO4") _ _ _ (str "B")); cbn; tauto || eassumption).
    all: try (eapply (Model4000 digit (str "MDO4") _ _ _ (str "")); cbn; tauto || eassumption).
    all: try (eapply (Model4000 digit (str "MSO4") _ _ _ (str "B")); cbn; tauto || eassumption).
    all: try (eapply (Model4000 digit (str "MSO4") _ _ _ (str "")); cbn; tauto || eassumption).
    all: try (eapply (Model4000 digit (str "DPO4") _ _ _ (str "B")); cbn; tauto || eassumption).
    all: try (eapply (Model4000 digit (str "DPO4") _ _ _ (str "")); cbn; tauto || eassumption).
  - intros [series a b c suffix I A B C SF]. exists []. apply in_seq_cons. exists []. split; [|apply in_seq_cons; exists []; split; [apply in_eos; auto|apply in_seq_nil; reflexivity]].
    assert (DG : In [] (rests (seqr [Digit; Digit; Digit; Opt (lit "B")]) ([a; b; c] ++ suffix))).
    { apply in_seq_cons. exists ([b; c] ++ suffix). split; [apply in_digit; exists a; split; [exact A|reflexivity]|].
      apply in_seq_cons. exists ([c] ++ suffix). split; [apply in_digit; exists b; split; [exact B|reflexivity]|].
      apply in_seq_cons. exists suffix. split; [apply in_digit; exists c; split; [exact C|reflexivity]|].
      apply in_seq_cons. exists []. split; [apply in_opt; rewrite app_nil_r; destruct SF as [<-|[<-|[]]]; auto|]. apply in_seq_nil. reflexivity. }
    cbn [alt]. rewrite !in_alt. destruct I as [<-|[<-|[<-|[<-|[]]]]].
    + left. apply in_seq_cons. exists (str "3" ++ [a; b; c] ++ suffix). split; [apply in_lit; reflexivity|].
      apply in_seq_cons. exists ([a; b; c] ++ suffix). split; [|exact DG]. cbn [alt]. rewrite in_alt. left. apply in_lit. reflexivity.
    + left. apply in_seq_cons. exists (str "4" ++ [a; b; c] ++ suffix). split; [apply in_lit; reflexivity|].
      apply in_seq_cons. exists ([a; b; c] ++ suffix). split; [|exact DG]. cbn [alt]. rewrite in_alt. right. apply in_lit. reflexivity.
    + right. left. apply in_seq_cons. exists ([a; b; c] ++ suffix). split; [apply in_lit; reflexivity|exact DG].
    + right. right. apply in_seq_cons. exists ([a; b; c] ++ suffix). split; [apply in_lit; reflexivity|exact DG].
Qed.
Lemma family456 m : (forall m', m <> m' ++ [10]) -> matches digit re_model456 m = true <-> In m models456.
Proof.
  intro N. split.
  - rewrite matches_in. unfold re_model456. intros (t & H). inv; subst.
    all: try match goal with |- In ?m _ => match m with context [[10]] => exfalso; eapply (N (removelast m)); cbn; reflexivity end end.
    all: vm_compute; tauto.
  - intro I. assert (F : Forall (fun m => matches digit re_model456 m = true) models456).
    { repeat (apply Forall_cons; [reflexivity|]). apply Forall_nil. }
    rewrite Forall_forall in F. apply F, I.
Qed.
Lemma models456_pattern m : In m models456 -> model456_pattern digit m.
Proof.
  intro I. assert (D : forall d, 48 <= d <= 57 -> digit d = true).
  { intros d B. rewrite ascii by lia. apply andb_true_intro. split; apply Z.leb_le; lia. }
  assert (F : Forall (model456_pattern digit) models456).
  { unfold models456. cbn [map].
    constructor; [apply (Model456 digit (str "MSO4") 52 (str "")); cbn; [tauto|apply D; lia|tauto]|].
    constructor; [apply (Model456 digit (str "MSO4") 54 (str "")); cbn; [tauto|apply D; lia|tauto]|].
    constructor; [apply (Model456 digit (str "MSO5") 52 (str "")); cbn; [tauto|apply D; lia|tauto]|].
    constructor; [apply (Model456 digit (str "MSO5") 52 (str "B")); cbn; [tauto|apply D; lia|tauto]|].
    constructor; [apply (Model456 digit (str "MSO5") 54 (str "")); cbn; [tauto|apply D; lia|tauto]|].
    constructor; [apply (Model456 digit (str "MSO5") 54 (str "B")); cbn; [tauto|apply D; lia|tauto]|].
    constructor; [apply (Model456 digit (str "MSO5") 56 (str "")); cbn; [tauto|apply D; lia|tauto]|].
    constructor; [apply (Model456 digit (str "MSO5") 56 (str "B")); cbn; [tauto|apply D; lia|tauto]|].
    constructor; [apply (Model456 digit (str "MSO5") 56 (str "LP")); cbn; [tauto|apply D; lia|tauto]|].
    constructor; [apply (Model456 digit (str "MSO6") 52 (str "")); cbn; [tauto|apply D; lia|tauto]|].
    constructor; [apply (Model456 digit (str "MSO6") 52 (str "B")); cbn; [tauto|apply D; lia|tauto]|].
    constructor; [apply (Model456 digit (str "MSO6") 54 (str "B")); cbn; [tauto|apply D; lia|tauto]|].
    constructor; [apply (Model456 digit (str "MSO6") 56 (str "B")); cbn; [tauto|apply D; lia|tauto]|].
    constructor; [constructor|constructor]. }
  rewrite Forall_forall in F. apply F, I.
Qed.
Lemma builtin_dispatch id : dispatch builtin (builtin_match digit) builtin_registry id =
  if matches digit re_mso4000 id then Ok MSO4000Family else if matches digit re_mso456 id then Ok MSO456Family else Err LookupError.
Proof.
  unfold builtin_registry. cbn [dispatch]. unfold builtin_match. rewrite !str_eqb_refl.
  replace (str_eqb pattern_mso456 pattern_mso4000) with false by reflexivity.
  destruct (matches digit re_mso4000 id); [reflexivity|]. destruct (matches digit re_mso456 id); reflexivity.
Qed.
End Regex.
