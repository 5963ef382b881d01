(** Theorems about configuration. *)
From Coq Require Import String ZArith QArith Bool List Lia.
Import ListNotations.
From Verif Require Import Base PyStr ConfigModel.
Local Close Scope Q_scope.

(** ** Specification *)
(** A name the configuration has, of its own or of its class. *)
Definition known (a : attrs) (k : pystr) : Prop := (exists v, lookup a k = Some v) \/ k = str "consume".
Definition ordinary (k : pystr) : Prop := dunder k = false.
(** [b] is [a] with the assignments of [d]: keys of a dictionary are distinct. *)
Definition updated (a d b : attrs) : Prop :=
  (forall k v, In (k, v) d -> lookup b k = Some v) /\ (forall k, ~ In k (map fst d) -> lookup b k = lookup a k).

Lemma eqb_refl k : str_eqb k k = true.
Proof. induction k as [|x k IH]; [reflexivity|]. cbn. rewrite Z.eqb_refl. exact IH. Qed.
Lemma eqb_eq a : forall b, str_eqb a b = true <-> a = b.
Proof.
  intros b. split; [|intros ->; apply eqb_refl]. revert b. induction a as [|x a IH]; intros [|y b] E; try discriminate; [reflexivity|]. cbn in E. apply andb_true_iff in E. destruct E as (X & E). apply Z.eqb_eq in X. rewrite X, (IH _ E). reflexivity.
Qed.
Lemma eqb_neq a b : str_eqb a b = false <-> a <> b.
Proof. split; intros H; [intros Q; apply eqb_eq in Q; congruence|]. destruct (str_eqb a b) eqn:E; [apply eqb_eq in E; congruence|reflexivity]. Qed.
Lemma lookup_cons p a k : lookup (p :: a) k = if str_eqb (fst p) k then Some (snd p) else lookup a k.
Proof. unfold lookup. cbn [find]. destruct (str_eqb (fst p) k); reflexivity. Qed.
Lemma lookup_set a k v k' : lookup (setattr a k v) k' = if str_eqb k k' then Some v else lookup a k'.
Proof.
  induction a as [|p a IH]; cbn [setattr]; [rewrite lookup_cons; reflexivity|]. destruct (str_eqb (fst p) k) eqn:E.
  - apply eqb_eq in E. rewrite !lookup_cons. cbn [fst snd]. destruct p as [q w]. cbn [fst] in E. subst q. cbn [fst snd]. destruct (str_eqb k k'); reflexivity.
  - rewrite !lookup_cons, IH. destruct (str_eqb (fst p) k') eqn:E1; [|reflexivity]. destruct (str_eqb k k') eqn:E2; [|reflexivity]. apply eqb_eq in E1, E2. apply eqb_neq in E. congruence.
Qed.
Lemma hasattr_known a k : hasattr a k = true <-> known a k.
Proof.
  unfold hasattr, known. destruct (lookup a k) as [v|]; [split; [intros _; left; exists v; reflexivity|reflexivity]|].
  unfold class_attrs. cbn [existsb]. rewrite orb_false_r, eqb_eq. split; [intros E; right; exact E|intros [(v & E)|E]; [discriminate|exact E]].
Qed.
Lemma known_set a k v k' : known a k -> (known (setattr a k v) k' <-> known a k').
Proof.
  intros K. unfold known. rewrite lookup_set. destruct (str_eqb k k') eqn:E; [|reflexivity]. apply eqb_eq in E. subst k'. split; [intros _; exact K|intros _; left; exists v; reflexivity].
Qed.
Lemma consume_ok : forall d a, NoDup (map fst d) -> (forall k, In k (map fst d) -> ordinary k) -> (forall k, In k (map fst d) -> known a k) ->
  exists b, consume a d = (Ok tt, b) /\ updated a d b /\ (forall k, known b k <-> known a k).
Proof.
  induction d as [|(k & v) d IH]; intros a ND O K; [exists a; split; [reflexivity|split; [split; [intros ? ? []|reflexivity]|reflexivity]]|].
  cbn [map fst] in *. inversion ND as [|? ? NI ND']; subst. cbn [consume]. rewrite (O k (or_introl eq_refl)). rewrite (proj2 (hasattr_known a k) (K k (or_introl eq_refl))). cbn [negb].
  assert (KS : forall k', known (setattr a k v) k' <-> known a k') by (intros k'; apply known_set, K; left; reflexivity).
  destruct (IH (setattr a k v) ND' (fun q Q => O q (or_intror Q)) (fun q Q => proj2 (KS q) (K q (or_intror Q)))) as (b & E & (UA & UB) & KB). exists b. split; [exact E|]. split.
  - split; [intros k' v' [I|I]; [injection I as <- <-; rewrite (UB k NI), lookup_set, eqb_refl; reflexivity|exact (UA k' v' I)]|].
    intros k' NK. cbn [map fst] in NK. rewrite UB by (intros Q; apply NK; right; exact Q). rewrite lookup_set. destruct (str_eqb k k') eqn:Q; [apply eqb_eq in Q; subst k'; destruct NK; left; reflexivity|reflexivity].
  - intros k'. rewrite KB. apply KS.
Qed.
Lemma consume_app : forall d1 a d2 b, consume a d1 = (Ok tt, b) -> consume a (d1 ++ d2) = consume b d2.
Proof.
  induction d1 as [|(k & v) d1 IH]; intros a d2 b E; [injection E as <-; reflexivity|]. cbn [consume app] in *. destruct (dunder k); [discriminate|]. destruct (negb (hasattr a k)); [discriminate|]. exact (IH _ _ _ E).
Qed.

(** *** C47: configuration *)
(** All names known: every value is taken, nothing else changes. *)
Theorem C47_applied : forall a d, NoDup (map fst d) -> (forall k, In k (map fst d) -> ordinary k) -> (forall k, In k (map fst d) -> known a k) ->
  exists b, consume a d = (Ok tt, b) /\ updated a d b.
Proof. intros a d N O K. destruct (consume_ok d a N O K) as (b & E & U & _). exists b. auto. Qed.
Print Assumptions C47_applied.
(** An unknown name: KeyError, whatever came before it in the dictionary has
    been applied, nothing after it. *)
Theorem C47_unknown : forall a d1 k v d2, NoDup (map fst d1) -> (forall q, In q (map fst d1) -> ordinary q) -> (forall q, In q (map fst d1) -> known a q) ->
  ordinary k -> ~ known a k ->
  exists b, consume a (d1 ++ (k, v) :: d2) = (Err KeyError, b) /\ updated a d1 b.
Proof.
  intros a d1 k v d2 N O K OK U. destruct (consume_ok d1 a N O K) as (b & E & UP & KB). exists b. split; [|exact UP]. rewrite (consume_app _ _ _ _ E). cbn [consume]. rewrite OK.
  destruct (hasattr b k) eqn:H; [|reflexivity]. apply hasattr_known, KB in H. contradiction.
Qed.
Print Assumptions C47_unknown.
(** Accepted exactly when every name is known. *)
Theorem C47_accepted_iff : forall a d, NoDup (map fst d) -> (forall k, In k (map fst d) -> ordinary k) ->
  (fst (consume a d) = Ok tt <-> forall k, In k (map fst d) -> known a k)
  /\ (fst (consume a d) = Err KeyError <-> exists k, In k (map fst d) /\ ~ known a k).
Proof.
  intros a d N O. assert (D : forall k, known a k \/ ~ known a k). { intros k. destruct (hasattr a k) eqn:H; [left; apply hasattr_known; exact H|right; intros Q; apply hasattr_known in Q; congruence]. }
  assert (C : (forall k, In k (map fst d) -> known a k) \/ exists d1 k v d2, d = d1 ++ (k, v) :: d2 /\ (forall q, In q (map fst d1) -> known a q) /\ ~ known a k).
  { clear N O. induction d as [|(k & v) d IH]; [left; intros ? []|]. destruct (D k) as [K|K]; [|right; exists [], k, v, d; split; [reflexivity|]; split; [intros ? []|exact K]].
    destruct IH as [IH|(d1 & k' & v' & d2 & -> & Q & U)]; [left; intros q [<-|Q]; [exact K|exact (IH q Q)]|]. right. exists ((k, v) :: d1), k', v', d2. split; [reflexivity|]. split; [intros q [<-|I]; [exact K|exact (Q q I)]|exact U]. }
  destruct C as [K|(d1 & k & v & d2 & -> & K & U)].
  - destruct (consume_ok d a N O K) as (b & E & _). rewrite E. cbn [fst]. split; [split; [intros _; exact K|reflexivity]|]. split; [discriminate|]. intros (k & I & U). exfalso. exact (U (K k I)).
  - rewrite map_app in N, O. cbn [map fst] in N, O.
    assert (N1 : NoDup (map fst d1)) by (apply NoDup_remove_1 in N; revert N; generalize (map fst d1) as l; clear; induction l as [|x l IH]; intros N; [constructor|]; cbn in N; inversion N; subst; constructor; [intros Q; apply H1, in_or_app; left; exact Q|apply IH; assumption]).
    destruct (C47_unknown a d1 k v d2 N1) as (b & E & _); [intros q Q; apply O, in_or_app; left; exact Q|exact K|apply O, in_or_app; right; left; reflexivity|exact U|].
    rewrite E. cbn [fst]. assert (IN : In k (map fst (d1 ++ (k, v) :: d2))) by (rewrite map_app; apply in_or_app; right; left; reflexivity). split; [split; [discriminate|intros Q; exfalso; exact (U (Q k IN))]|]. split; [intros _; exists k; auto|reflexivity].
Qed.
Print Assumptions C47_accepted_iff.
(** Construction: the documented defaults overridden by the arguments; the
    two-level configuration knows three names more. *)
Theorem C47_construction : forall (pam2 : bool) d, NoDup (map fst d) -> (forall k, In k (map fst d) -> ordinary k) ->
  let defaults := (if pam2 then config_defaults ++ pam2_defaults else config_defaults) in
  ((forall k, In k (map fst d) -> In k (str "consume" :: map fst defaults)) -> exists c, new_config pam2 d = Ok c /\ updated defaults d c)
  /\ ((exists k, In k (map fst d) /\ ~ In k (str "consume" :: map fst defaults)) -> new_config pam2 d = Err KeyError).
Proof.
  intros pam2 d N O defaults. assert (KN : forall k, known defaults k <-> In k (str "consume" :: map fst defaults)).
  { intros k. unfold known. cbn [In]. assert (L : (exists v, lookup defaults k = Some v) <-> In k (map fst defaults)).
    { generalize defaults. intros l. induction l as [|p l IH]; [split; [intros (v & E); discriminate|intros []]|]. rewrite lookup_cons. cbn [map In]. destruct (str_eqb (fst p) k) eqn:E; [apply eqb_eq in E; split; [intros _; left; exact E|intros _; eexists; reflexivity]|]. apply eqb_neq in E. rewrite IH. tauto. }
    rewrite L. split; intros [Q|Q]; auto. }
  assert (NC : new_config pam2 d = let '(r, a) := consume defaults d in bind r (fun _ => Ok a)) by reflexivity. rewrite NC. clear NC. clearbody defaults. destruct (C47_accepted_iff defaults d N O) as (A & B). split.
  - intros K. destruct (C47_applied defaults d N O (fun k Q => proj2 (KN k) (K k Q))) as (c & E & U). rewrite E. exists c. split; [reflexivity|exact U].
  - intros (k & I & U). assert (Q : fst (consume defaults d) = Err KeyError) by (apply B; exists k; split; [exact I|]; rewrite KN; exact U). destruct (consume defaults d) as [r b]. cbn [fst] in Q. rewrite Q. reflexivity.
Qed.
Print Assumptions C47_construction.
(** The method's own name is accepted as a setting, and the name in the
    documentation of time_height is not. *)
Theorem C47_only_settings_refuted :
  (forall v, exists c, new_config false [(str "consume", v)] = Ok c /\ lookup c (str "consume") = Some v)
  /\ (forall (pam2 : bool) v, new_config pam2 [(str "time_hight", v)] = Err KeyError).
Proof. split; [intros v; eexists; split; reflexivity|intros [|] v; reflexivity]. Qed.
Print Assumptions C47_only_settings_refuted.
Example C47_example :
  new_config false [(str "y_0", VNum 1)] = Err KeyError
  /\ exists c, new_config true [(str "edge_lower", VNum (1 # 10)); (str "y_0", VNum 1)] = Ok c
     /\ lookup c (str "y_0") = Some (VNum 1) /\ lookup c (str "edge_lower") = Some (VNum (1 # 10)) /\ lookup c (str "edge_upper") = Some (VNum (8 # 10)) /\ lookup c (str "y_1") = Some VNone
  /\ consume config_defaults [(str "edge_lower", VNum (1 # 10)); (str "y_0", VNum 1); (str "edge_upper", VNum 1)]
     = (Err KeyError, setattr config_defaults (str "edge_lower") (VNum (1 # 10))).
Proof. split; [reflexivity|]. eexists. split; [reflexivity|]. repeat split. Qed.
(** The settings and their values when nothing is asked for. *)
Theorem C47_defaults : forall pam2 : bool, exists c, new_config pam2 [] = Ok c
  /\ (forall k, (exists v, lookup c k = Some v) <->
       In k ([str "clock_polarity"; str "cdr"; str "fallback_period"; str "hysteresis"; str "hysteresis_ua"; str "levels_n_max";
              str "level_width"; str "cross_width"; str "time_height"; str "edge_lower"; str "edge_upper"; str "noise_floor";
              str "skip_measures"; str "point_cloud"] ++ (if pam2 then [str "y_0"; str "y_1"; str "y_th"] else [])))
  /\ (forall k, In k ([str "cdr"; str "hysteresis"] ++ (if pam2 then [str "y_0"; str "y_1"; str "y_th"] else [])) -> lookup c k = Some VNone)
  /\ (forall k, In k [str "skip_measures"; str "point_cloud"] -> lookup c k = Some (VBool false))
  /\ (forall k q, In (k, q) [(str "hysteresis_ua", (1 # 10)%Q); (str "levels_n_max", (10000 # 1)%Q); (str "fallback_period", (1 # 10000000)%Q);
        (str "level_width", (2 # 10)%Q); (str "cross_width", (1 # 10)%Q); (str "time_height", (5 # 100)%Q); (str "edge_lower", (2 # 10)%Q); (str "edge_upper", (8 # 10)%Q)]
        -> lookup c k = Some (VNum q))
  /\ lookup c (str "clock_polarity") = Some VRising /\ lookup c (str "noise_floor") = Some (VUncertain (0 # 1)%Q (0 # 1)%Q).
Proof.
  intros pam2. exists (if pam2 then config_defaults ++ pam2_defaults else config_defaults).
  split; [destruct pam2; reflexivity|]. split; [|].
  - intros k. split.
    + intros (v & E). unfold lookup in E. destruct (find _ _) as [p|] eqn:F; [|discriminate]. apply find_some in F. destruct F as (I & Q). apply eqb_eq in Q. subst k. clear E.
      destruct pam2; cbn [config_defaults pam2_defaults app In] in I; repeat (destruct I as [<-|I]; [cbn [app In fst]; tauto|]); destruct I.
    + intros I. destruct pam2; cbn [app In] in I; repeat (destruct I as [<-|I]; [eexists; reflexivity|]); destruct I.
  - split; [|split; [|split; [|split; destruct pam2; reflexivity]]].
    + intros k I. destruct pam2; cbn [app In] in I; repeat (destruct I as [<-|I]; [reflexivity|]); destruct I.
    + intros k I. destruct pam2; cbn [app In] in I; repeat (destruct I as [<-|I]; [reflexivity|]); destruct I.
    + intros k q I. destruct pam2; cbn [app In] in I; repeat (destruct I as [E|I]; [injection E as <- <-; reflexivity|]); destruct I.
Qed.
Print Assumptions C47_defaults.
