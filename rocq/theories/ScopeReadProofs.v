(** Assignments as sequences of settings, and reading them back. *)
From Coq Require Import String ZArith Bool QArith Qabs Lia Morphisms List.
Import ListNotations.
From Verif Require Import Base PyStr PyStrProofs ScpiModel ScpiProofs IOModel EquipModel EquipProofs TekModel TekProofs
  ScopeModel ScopeSpec ScopeProofs ScopeTripProofs.
Local Open Scope Z_scope.
Local Open Scope list_scope.

Section Assign.
Context {D : Type}.
Variable dev : device D.

Lemma bind_tt (m : io D unit) w : iobind m (fun _ => ret tt) w = m w.
Proof. unfold iobind, ret. destruct (m w) as [[[]|e] w']; reflexivity. Qed.
Lemma bind_ext {X} (m : io D X) {Y} (f g : X -> io D Y) w : (forall x w, f x w = g x w) -> iobind m f w = iobind m g w.
Proof. intros E. unfold iobind. destruct (m w) as [[x|e] w']; [apply E|reflexivity]. Qed.
Lemma put_one k v w : put dev [(k, v)] w = send dev (k ++ str " " ++ v) w.
Proof. apply bind_tt. Qed.
Lemma put_cons k v l w : put dev ((k, v) :: l) w = iobind (send dev (k ++ str " " ++ v)) (fun _ => put dev l) w.
Proof. reflexivity. Qed.

Lemma source_4000 s e src : source_ok F4000 s e src -> check_source (D := D) src (sources_4000 s) = ret tt.
Proof.
  intros S. unfold check_source. replace (mem src (sources_4000 s)) with true; [reflexivity|]. symmetry. apply mem_spec.
  unfold sources_4000. destruct S as [(i & I & ->)|[->|[(i & I & ->)|[A ->]]]].
  - right. apply in_or_app. left. unfold analog. apply in_map_iff. exists i. split; [reflexivity|exact I].
  - left. reflexivity.
  - right. apply in_or_app. right. apply in_or_app. left. unfold digital. apply in_map_iff. exists i. split; [reflexivity|exact I].
  - right. apply in_or_app. right. apply in_or_app. right. rewrite A. left. reflexivity.
Qed.
Lemma analog_spec s src : mem src (analog s) = true <-> exists i, In i (channels s) /\ src = alias (Analog i).
Proof.
  rewrite mem_spec. unfold analog. rewrite in_map_iff. split; intros (i & A & B); exists i; split; try assumption; symmetry; assumption.
Qed.
Lemma alias_not_line i : str_eqb (alias (Analog i)) (str "LINE") = false. Proof. reflexivity. Qed.
Lemma alias_not_aux i : str_eqb (alias (Analog i)) (str "AUX") = false. Proof. reflexivity. Qed.

Lemma bind_assoc {X Y Z} (m : io D X) (f : X -> io D Y) (g : Y -> io D Z) w :
  iobind (iobind m f) g w = iobind m (fun x => iobind (f x) g) w.
Proof. unfold iobind. destruct (m w) as [[x|e] w']; reflexivity. Qed.
Lemma set_width_put w c rest tail : width_ok w c -> (forall wd, rest wd = put dev tail wd) -> forall wd,
  iobind (set_width dev w (inl c)) (fun _ => rest) wd = put dev (widths w ++ tail) wd.
Proof.
  intros WO E wd. unfold set_width. destruct w as [a|a b]; unfold widths, key; cbn [app]; rewrite put_cons.
  - destruct c; try contradiction; cbn [ranged]; apply bind_ext; intros _ w'; apply E.
  - destruct c; try contradiction; cbn [ranged]; rewrite bind_assoc; apply bind_ext; intros _ w'; rewrite put_cons; apply bind_ext; intros _ w'';
      apply E.
Qed.
Lemma word_put k x rest tail : (forall wd, rest wd = put dev tail wd) -> forall wd,
  iobind (send_word dev k (Ok x)) (fun _ => rest) wd = put dev ((str k, x) :: tail) wd.
Proof. intros E wd. rewrite put_cons. apply bind_ext. intros _ w. apply E. Qed.
Lemma send_put c k x rest tail : c = k ++ str " " ++ x -> (forall wd, rest wd = put dev tail wd) -> forall wd,
  iobind (send dev c) (fun _ => rest) wd = put dev ((k, x) :: tail) wd.
Proof. intros -> E wd. rewrite put_cons. apply bind_ext. intros _ w. apply E. Qed.
Lemma check_put s l rest tail : check_source (D := D) s l = ret tt -> (forall wd, rest wd = put dev tail wd) -> forall wd,
  iobind (check_source (D := D) s l) (fun _ => rest) wd = put dev tail wd.
Proof. intros -> E wd. apply E. Qed.
Lemma send_put1 c k x : c = k ++ str " " ++ x -> forall wd, send dev c wd = put dev [(k, x)] wd.
Proof. intros -> wd. symmetry. apply put_one. Qed.
Ltac sends := repeat match goal with
  | |- forall _ : world _, _ => fail 1
  | |- iobind (send_word _ _ (Ok _)) _ _ = _ => apply word_put; intros ?
  | |- iobind (check_source _ _) _ _ = _ => apply check_put; [assumption|intros ?]
  | |- iobind (set_width _ _ _) _ _ = _ => apply set_width_put; [assumption|intros ?]
  | |- iobind (send _ _) _ _ = _ => apply send_put; [reflexivity|intros ?]
  | |- iobind (set_float _ _ _) _ _ = _ => apply send_put; [reflexivity|intros ?]
  | |- send _ _ _ = _ => apply send_put1; reflexivity
  | |- set_float _ _ _ _ = _ => apply send_put1; reflexivity
  | |- set_int _ _ _ _ = _ => apply send_put1; reflexivity
  end.
Lemma trigger_put_4000 s t w : trigger_ok F4000 s t -> set_trigger_4000 dev s t w = put dev (trigger_writes F4000 t) w.
Proof.
  destruct t as [src level slope dc h|src level timeout slope h|src level wi c pos h|]; cbn [trigger_ok]; intros OK; [..|destruct OK].
  - destruct OK as [S [p ->]]. apply source_4000 in S. unfold set_trigger_4000, trigger_writes, levels, key, slope_of. cbn [app].
    replace (edge_word (inl p)) with (Ok (edge_text p)) by (destruct p; reflexivity). sends.
  - destruct OK as [S [p ->]]. apply source_4000 in S. unfold set_trigger_4000, trigger_writes, kind, key, slope_of. cbn [app].
    replace (stays_word (inl p)) with (Ok (stays_text p)) by (destruct p; reflexivity). sends.
  - destruct OK as [S [c' [-> WO]]]. apply source_4000 in S. unfold set_trigger_4000, trigger_writes, kind, key, when_of. cbn [app].
    replace (when_word (inl c')) with (Ok (when_text c')) by (destruct c'; reflexivity). sends.
Qed.
Lemma trigger_put_456 s t w : trigger_ok F456 s t -> set_trigger_456 dev s t w = put dev (trigger_writes F456 t) w.
Proof.
  assert (forall src, source_ok F456 s false src -> check_source (D := D) src (analog s) = ret tt) as SA.
  { intros src [A|[A _]]; [|discriminate A]. apply analog_spec in A. unfold check_source. rewrite A. reflexivity. }
  destruct t as [src level slope dc h|src level timeout slope h|src level wi c pos h|]; cbn [trigger_ok]; intros OK; [..|destruct OK].
  - destruct OK as [S [p ->]].
    assert (check_source (D := D) src (str "LINE" :: str "AUX" :: analog s) = ret tt) as CS.
    { unfold check_source. replace (mem src _) with true; [reflexivity|]. symmetry. apply mem_spec.
      destruct S as [A|[_ [->| ->]]]; [|left; reflexivity|right; left; reflexivity]. apply analog_spec, mem_spec in A. right. right. exact A. }
    unfold set_trigger_456, trigger_writes, levels, key, slope_of.
    replace (edge_word (inl p)) with (Ok (edge_text p)) by (destruct p; reflexivity).
    assert (mem (str "LINE") (analog s) = false) as NL.
    { destruct (mem (str "LINE") (analog s)) eqn:M; [|reflexivity]. apply analog_spec in M. destruct M as (i & _ & E). discriminate E. }
    assert (mem (str "AUX") (analog s) = false) as NA.
    { destruct (mem (str "AUX") (analog s)) eqn:M; [|reflexivity]. apply analog_spec in M. destruct M as (i & _ & E). discriminate E. }
    destruct S as [A|[_ [->| ->]]].
    + pose proof A as (i & _ & Ei). apply analog_spec in A. rewrite A, Ei, alias_not_line, alias_not_aux, <- Ei. cbn [app]. sends.
    + rewrite NL. change (str_eqb (str "LINE") (str "LINE")) with true. change (str_eqb (str "LINE") (str "AUX")) with false. cbn [app].
      sends. change (iobind (ret tt) ?f ?x) with (f tt x). cbv beta. sends.
    + rewrite NA. change (str_eqb (str "AUX") (str "LINE")) with false. change (str_eqb (str "AUX") (str "AUX")) with true. cbn [app]. sends.
  - destruct OK as [S [p ->]]. apply SA in S. unfold set_trigger_456, trigger_writes, kind, key, slope_of. cbn [app].
    replace (stays_word (inl p)) with (Ok (stays_text p)) by (destruct p; reflexivity). sends.
  - destruct OK as [S [c' [-> WO]]]. apply SA in S. unfold set_trigger_456, trigger_writes, kind, key, when_of. cbn [app].
    replace (when_word (inl c')) with (Ok (when_text c')) by (destruct c'; reflexivity). sends.
Qed.
Lemma label_kept t : label_ok t -> firstn 30 (ascii t) = t.
Proof.
  intros [L F]. replace (ascii t) with t; [apply firstn_all2; exact L|]. unfold ascii. clear L.
  induction F as [|c t [Hc _] _ IH]; [reflexivity|]. cbn [filter].
  replace ((0 <=? c) && (c <? 128)) with true; [congruence|]. symmetry. apply andb_true_iff. split; [apply Z.leb_le|apply Z.ltb_lt]; lia.
Qed.
Lemma assign_put f s a w : assignment_ok f s a -> assign dev f s a w = put dev (writes f a) w.
Proof.
  intros [OK DG]. destruct a as [c q v|c dc|c on|c t|c x|v|v|n|m|t]; cbn [assign].
  - destruct q; apply send_put1; reflexivity.
  - apply send_put1. destruct dc; reflexivity.
  - destruct f; apply send_put1; reflexivity.
  - apply label_kept in OK. destruct f; apply send_put1; unfold set_label_4000, set_label_456, set_text; rewrite OK; reflexivity.
  - apply send_put1. reflexivity.
  - destruct f; unfold writes, manual_mode, key; cbn [app]; [apply send_put1; reflexivity|]. unfold set_time_scale_456, manual. sends.
  - destruct f; unfold writes, manual_mode, key; cbn [app]; [unfold set_time_offset_4000|unfold set_time_offset_456, manual]; sends.
  - destruct f; unfold writes, manual_mode, key; cbn [app]; [apply send_put1; reflexivity|]. unfold set_time_points_456, manual. sends.
  - destruct m; apply send_put1; reflexivity.
  - destruct f; [apply trigger_put_4000|apply trigger_put_456]; exact OK.
Qed.
End Assign.

Lemma words_no_dot f : Forall (fun p => ~ In 46 (fst p)) (words f).
Proof.
  destruct f; cbn [words words_4000 words_456 pairs map words_common fst]; repeat (constructor; [intros I; cbn in I;
    repeat (destruct I as [I|I]; [discriminate I|]); destruct I|]); constructor.
Qed.

(** The replies to a word. *)
Definition replies (f : family) (v : pystr) : list pystr := v :: map snd (filter (fun p => str_eqb (fst p) v) (words f)).
Lemma shows_word f k v r : is_switch k = false -> word v -> ~ In 46 v -> shows (words f) k v r -> In r (replies f v).
Proof.
  intros SW W N. unfold shows. rewrite SW. intros [(t & E & _)|[_ [->|[J|[I _]]]]].
  - rewrite E in W. inversion W; subst. lia.
  - left. reflexivity.
  - right. apply in_map_iff. exists (v, r). split; [reflexivity|]. apply filter_In. split; [exact J|]. cbn [fst]. apply str_eqb_refl.
  - contradiction.
Qed.
Lemma no_dot_alias c : ~ In 46 (alias c).
Proof.
  assert (forall m, 0 <= m -> ~ In 46 (dchars (digits m))) as ND.
  { intros m Hm I. destruct (digits_spec m Hm) as (DL & _). unfold dchars in I. apply in_map_iff in I. destruct I as (d & Ed & Id).
    unfold digit_list in DL. rewrite Forall_forall in DL. specialize (DL d Id). cbv beta in DL. lia. }
  assert (forall i, ~ In 46 (str_int i)) as NI.
  { intros i. unfold str_int. destruct (i <? 0) eqn:E; [apply Z.ltb_lt in E|apply Z.ltb_ge in E].
    - intros [A|A]; [discriminate A|]. revert A. apply ND. lia.
    - apply ND. lia. }
  destruct c as [i|i]; intros I; [change (In 46 (67 :: 72 :: str_int i)) in I|change (In 46 (68 :: str_int i)) in I];
    repeat (destruct I as [I|I]; [discriminate I|]); revert I; apply NI.
Qed.
Lemma replies_alias f c : replies f (alias c) = [alias c].
Proof. destruct c as [i|i], f; reflexivity. Qed.
Lemma source_cases f s e src : source_ok f s e src -> (exists c, src = alias c) \/ src = str "LINE" \/ src = str "AUX".
Proof.
  intros [(i & _ & ->)|S]; [left; exists (Analog i); reflexivity|]. destruct f.
  - destruct S as [->|[(i & _ & ->)|[_ ->]]]; [right; left; reflexivity|left; exists (Digital i); reflexivity|right; right; reflexivity].
  - destruct S as [_ [->| ->]]; [right; left; reflexivity|right; right; reflexivity].
Qed.
Lemma source_reply f s e src r : source_ok f s e src -> In r (replies f src) ->
  r = src \/ (f = F456 /\ src = str "AUX" /\ r = str "AUXILIARY").
Proof.
  intros S I. destruct (source_cases f s e src S) as [[c ->]|[->| ->]].
  - rewrite replies_alias in I. destruct I as [<-|[]]. left. reflexivity.
  - destruct f; destruct I as [<-|[]]; left; reflexivity.
  - destruct f; [destruct I as [<-|[]]; left; reflexivity|]. destruct I as [<-|[<-|[]]]; [left; reflexivity|right; auto].
Qed.
Lemma no_dot_source f s e src : source_ok f s e src -> ~ In 46 src.
Proof.
  intros S. destruct (source_cases f s e src S) as [[c ->]|[->| ->]]; [apply no_dot_alias| |];
    intros I; cbn in I; repeat (destruct I as [I|I]; [discriminate I|]); destruct I.
Qed.

Lemma quantity_eq_threshold q : q = Threshold \/ q <> Threshold.
Proof. destruct q; [right; discriminate..|left; reflexivity]. Qed.

Section Read.
Context {D : Type}.
Variable dev : device D.
Variable f : family.
Variable reg : D -> pystr -> pystr.
Hypothesis ST : stores dev (words f) reg.
Variable n : nat.
Variable fl : Q -> Q.
Hypothesis FL : Proper (Qeq ==> Qeq) fl.
Variable s : scope.

Lemma ask_word l k v w : knows reg n l w -> In (str k, v) l -> settable (str k) -> is_switch (str k) = false -> word v -> ~ In 46 v ->
  exists r w', ask dev (str k ++ str "?") w = (Ok r, w') /\ knows reg n l w' /\ In r (replies f v).
Proof.
  intros K I P SW W N. destruct (ask_knows dev (words f) reg ST n l (str k) v w K I P (or_introl W)) as (r & w' & E & K' & S).
  exists r, w'. split; [exact E|]. split; [exact K'|]. eapply shows_word; eassumption.
Qed.
Lemma get_number l k x w : knows reg n l w -> In (k, sci 6 x) l -> settable k -> is_switch k = false ->
  exists y w', get_float dev fl k w = (Ok y, w') /\ knows reg n l w' /\ reads_back fl x y.
Proof. intros K I P SW. eapply get_float_knows; eauto using words_no_dot. Qed.
Lemma bind_ok_eq {X Y} (m : io D X) (g : X -> io D Y) w x w' : m w = (Ok x, w') -> iobind m g w = g x w'.
Proof. intros E. unfold iobind. rewrite E. reflexivity. Qed.

Lemma ask_word_at l k v w : knows reg n l w -> In (k, v) l -> settable k -> is_switch k = false -> word v -> ~ In 46 v ->
  exists r w', ask dev (k ++ str "?") w = (Ok r, w') /\ knows reg n l w' /\ In r (replies f v).
Proof.
  intros K I P SW W N. destruct (ask_knows dev (words f) reg ST n l k v w K I P (or_introl W)) as (r & w' & E & K' & S).
  exists r, w'. split; [exact E|]. split; [exact K'|]. eapply shows_word; eassumption.
Qed.
Lemma channel_not_switch c k : is_switch (key_of (alias c) k) = false.
Proof.
  destruct (is_switch _) eqn:E; [|reflexivity]. exfalso. destruct c as [i|i]; [discriminate E|].
  change (startswith (str "ISPLAY:") (str_int i ++ 58 :: str k) = true) in E.
  pose proof (numeric_str_int i) as N. destruct (str_int i) as [|c l]; [discriminate E|]. inversion N; subst.
  cbn [app str startswith] in E. destruct (_ =? _) eqn:E' in E; [|discriminate E]. apply Z.eqb_eq in E'. cbn in E'. lia.
Qed.
Ltac nodot := let I := fresh in intros I; cbn in I; repeat (destruct I as [I|I]; [discriminate I|]); destruct I.
Lemma strip_label t : Forall (fun c => 0 <= c < 128 /\ c <> 34 /\ c <> 39) t -> strip_of 34 (34 :: t ++ [34]) = t.
Proof.
  intros F. assert (forall l, Forall (fun c => c <> 34) l -> lstrip_of 34 l = l) as LS.
  { intros l Fl. destruct Fl as [|c l N _]; [reflexivity|]. cbn [lstrip_of]. apply Z.eqb_neq in N. rewrite N. reflexivity. }
  assert (Forall (fun c => c <> 34) t) as F' by (eapply Forall_impl; [|exact F]; cbv beta; tauto).
  unfold strip_of. change (lstrip_of 34 (34 :: t ++ [34])) with (lstrip_of 34 (t ++ [34])).
  destruct F' as [|c t N F']; [reflexivity|]. assert (lstrip_of 34 ((c :: t) ++ [34]) = (c :: t) ++ [34]) as ->.
  { cbn [app lstrip_of]. apply Z.eqb_neq in N. rewrite N. reflexivity. }
  rewrite rev_app_distr. change (lstrip_of 34 (rev [34] ++ rev (c :: t))) with (lstrip_of 34 (rev (c :: t))).
  rewrite LS; [apply rev_involutive|]. apply Forall_rev. constructor; assumption.
Qed.
Lemma gives_simple a w : (forall t, a <> ATrigger t) -> assignment_ok f s a -> knows reg n (depends f a) w -> gives dev fl f a w.
Proof.
  intros NT [OK DG] K. destruct a as [c q v|c dc|c on|c t|c x|v|v|i|m|t]; cbn [depends writes] in K; cbn [gives].
  - pose proof (channel_not_switch c (suffix q)) as SW.
    assert (settable (key_of (alias c) (suffix q))) as PK by (apply plain_key_of; destruct q; chars).
    destruct (get_number _ _ v w K (or_introl eq_refl) PK SW) as (y & w' & E & _ & R).
    assert (q <> Threshold -> get_quantity dev fl (alias c) q = get_float dev fl (key_of (alias c) (suffix q))) as EQ by (destruct q; intros; [reflexivity..|contradiction]).
    destruct (quantity_eq_threshold q) as [->|N]; [|rewrite (EQ N); exists y, w'; split; assumption].
    cbn [get_quantity]. destruct (ask_knows dev (words f) reg ST n _ _ _ w K (or_introl eq_refl) PK (or_introl (word_sci v))) as (r & w2 & E2 & _ & S).
    destruct (shows_threshold (words f) (words_no_dot f) fl FL _ v r SW S) as (y2 & E3 & R3).
    exists y2, w2. split; [|exact R3]. unfold get_threshold. erewrite bind_ok_eq; [|exact E2]. unfold lift. rewrite E3. reflexivity.
  - destruct (ask_word_at _ _ _ w K (or_introl eq_refl) (plain_key_of c "COUPLING" ltac:(chars)) (channel_not_switch c _)) as (r & w' & E & _ & I).
    { destruct dc; chars. } { destruct dc; nodot. }
    exists (str_eqb r (str "DC")), w'. split; [unfold get_dc_coupling; erewrite bind_ok_eq; [|exact E]; reflexivity|].
    destruct dc, f; destruct I as [<-|[]]; reflexivity.
  - assert (exists r w', ask dev (active_key f c ++ str "?") w = (Ok r, w') /\ shows (words f) (active_key f c) (switch on) r) as (r & w' & E & S).
    { destruct (ask_knows dev (words f) reg ST n _ (active_key f c) (switch on) w K (or_introl eq_refl)) as (r & w' & E & _ & S).
      - split; [|destruct f; reflexivity]. destruct f; cbn [active_key]; [apply plain_app; [chars|apply plain_alias]|].
        apply plain_app; [chars|]. apply plain_app; [apply plain_alias|chars].
      - left. destruct on; chars.
      - exists r, w'. split; assumption. }
    assert (on = mem r [str "ON"; str "1"]) as R.
    { unfold shows in S. replace (is_switch (active_key f c)) with true in S by (destruct f; reflexivity).
      destruct S as [(t & E1 & _)|[_ [->|[J|(J & _)]]]].
      - destruct on; discriminate E1.
      - destruct on; reflexivity.
      - cbn [In] in J. destruct J as [J|[J|[]]]; injection J as J <-; destruct on; try discriminate J; reflexivity.
      - exfalso. revert J. destruct on; nodot. }
    exists (mem r [str "ON"; str "1"]), w'. split; [|exact R].
    destruct f; (unfold get_active_4000, get_active_456, get_switch; erewrite bind_ok_eq; [|exact E]; reflexivity).
  - destruct (ask_knows dev (words f) reg ST n _ (label_key f c) _ w K (or_introl eq_refl)) as (r & w' & E & _ & S).
    { destruct f; apply plain_key_of; chars. }
    { right. exists t. split; [reflexivity|]. destruct OK as [_ F]. eapply Forall_impl; [|exact F]. cbv beta. tauto. }
    assert (strip_of 34 r = t) as R.
    { destruct S as [(t' & E1 & ->)|[W _]].
      - injection E1 as E1. apply app_inj_tail in E1. destruct E1 as [<- _]. apply strip_label. apply OK.
      - inversion W; subst. lia. }
    exists (strip_of 34 r), w'. split; [|symmetry; exact R].
    destruct f; (unfold get_label_4000, get_label_456, get_text; erewrite bind_ok_eq; [|exact E]; reflexivity).
  - exact I.
  - destruct (get_number _ _ v w K (or_introl eq_refl) ltac:(chars) eq_refl) as (y & w' & E & _ & R). exists y, w'. split; assumption.
  - destruct (get_number _ _ v w K (or_introl eq_refl) ltac:(chars) eq_refl) as (y & w' & E & _ & R). exists y, w'. split; assumption.
  - destruct (get_int_knows dev (words f) reg ST n _ _ i w K (or_introl eq_refl) ltac:(chars) eq_refl) as (w' & E & _).
    { intros r I. pose proof (numeric_str_int i) as N. destruct f; cbn [words words_4000 words_456 pairs map words_common fst snd] in I;
      repeat (destruct I as [I|I]; [injection I as I _; rewrite <- I in N; inversion N as [|? ? N1 N2]; subst; try lia; inversion N2; subst; lia|]); destruct I. }
    exists i, w'. split; [exact E|reflexivity].
  - destruct (ask_word_at _ _ _ w K (or_introl eq_refl) ltac:(chars) eq_refl) as (r & w' & E & _ & I).
    { destruct m; chars. } { destruct m; nodot. }
    eexists _, w'. split; [unfold get_sample_mode; change (str "ACQUIRE:MODE?") with (str "ACQUIRE:MODE" ++ str "?");
                          erewrite bind_ok_eq; [|exact E]; reflexivity|].
    destruct m, f; destruct I as [<-|[<-|[]]]; reflexivity.
  - destruct (NT t eq_refl).
Qed.

(** ** Triggers *)
Lemma yields_bind {X Y} (m : io D X) (g : X -> io D Y) w x w' P : m w = (Ok x, w') -> yields (g x) w' P -> yields (iobind m g) w P.
Proof. intros E (y & w2 & E2 & H). exists y, w2. split; [erewrite bind_ok_eq; [|exact E]; exact E2|exact H]. Qed.
Lemma yields_assoc {X Y Z} (m : io D X) (g : X -> io D Y) (h : Y -> io D Z) w P :
  yields (iobind m (fun x => iobind (g x) h)) w P -> yields (iobind (iobind m g) h) w P.
Proof. intros (y & w2 & E2 & H). exists y, w2. split; [|exact H]. rewrite bind_assoc. exact E2. Qed.
Lemma yields_ret {X} (x : X) w (P : X -> Prop) : P x -> yields (ret x : io D X) w P.
Proof. intros H. exists x, w. split; [reflexivity|exact H]. Qed.
Lemma yields_ask {X} l k v c (g : pystr -> io D X) w P : knows reg n l w -> In (str k, v) l -> settable (str k) -> is_switch (str k) = false ->
  word v -> ~ In 46 v -> c = str k ++ str "?" ->
  (forall r w', knows reg n l w' -> In r (replies f v) -> yields (g r) w' P) -> yields (iobind (ask dev c) g) w P.
Proof.
  intros K I PK SW W N -> G. destruct (ask_word_at l (str k) v w K I PK SW W N) as (r & w' & E & K' & J).
  eapply yields_bind; [exact E|]. apply G; assumption.
Qed.
Lemma yields_float {X} l k x (g : Q -> io D X) w P : knows reg n l w -> In (k, sci 6 x) l -> settable k -> is_switch k = false ->
  (forall y w', knows reg n l w' -> reads_back fl x y -> yields (g y) w' P) -> yields (iobind (get_float dev fl k) g) w P.
Proof.
  intros K I PK SW G. destruct (get_number l k x w K I PK SW) as (y & w' & E & K' & J).
  eapply yields_bind; [exact E|]. apply G; assumption.
Qed.
Lemma in_app3 {X} (a b c : list X) x : In x a \/ In x b \/ In x c -> In x (a ++ b ++ c).
Proof. intros [I|[I|I]]; apply in_or_app; [left; exact I|right; apply in_or_app; left; exact I|right; apply in_or_app; right; exact I]. Qed.
Lemma word_edge p : word (edge_text p). Proof. destruct p; chars. Qed.
Lemma word_stays p : word (stays_text p). Proof. destruct p; chars. Qed.
Lemma word_when p : word (when_text p). Proof. destruct p; chars. Qed.
Lemma dot_edge p : ~ In 46 (edge_text p). Proof. destruct p; nodot. Qed.
Lemma dot_stays p : ~ In 46 (stays_text p). Proof. destruct p; nodot. Qed.
Lemma dot_when p : ~ In 46 (when_text p). Proof. destruct p; nodot. Qed.
Lemma read_edge p r : In r (replies f (edge_text p)) -> read_polarity r = inl p.
Proof. destruct f, p; intros I; repeat (destruct I as [<-|I]; [reflexivity|]); destruct I. Qed.
Lemma read_stays p r : In r (replies f (stays_text p)) -> read_polarity r = inl p.
Proof. destruct f, p; intros I; repeat (destruct I as [<-|I]; [reflexivity|]); destruct I. Qed.
Lemma read_when c r : In r (replies f (when_text c)) -> read_comparison r = inl (exclusive c).
Proof. destruct f, c; intros I; repeat (destruct I as [<-|I]; [reflexivity|]); destruct I. Qed.
Lemma read_positive (b : bool) r : In r (replies f (if b then str "POSITIVE" else str "NEGATIVE")) -> startswith (str "POS") (upper r) = b.
Proof. destruct f, b; intros I; repeat (destruct I as [<-|I]; [reflexivity|]); destruct I. Qed.

Definition level_of : pystr -> io D Q := match f with F4000 => level_4000 dev fl | F456 => level_456 dev fl end.
Lemma level_knows l e src level w : source_ok f s e src -> incl (levels f src level) l -> knows reg n l w ->
  exists y w', level_of src w = (Ok y, w') /\ knows reg n l w' /\ level_back f fl src level y.
Proof.
  intros S IL K. assert (is_switch (level_key src) = false) as SW by reflexivity.
  pose proof (plain_level src (proj2 (word_source f s e src S))) as PL. assert (f = F4000 \/ f = F456) as [Ef|Ef] by (destruct f; auto); unfold level_of; rewrite Ef in IL |- *; unfold levels, level_back in *.
  - apply get_number; auto. apply IL. left. reflexivity.
  - destruct (str_eqb src (str "LINE")) eqn:EL.
    + apply str_eqb_eq in EL. exists 0%Q, w. split; [unfold level_456; rewrite EL; reflexivity|]. auto.
    + assert (src <> str "LINE") as NL by (intros E; rewrite E in EL; discriminate EL).
      destruct (str_eqb src (str "AUX")) eqn:EA.
      * destruct (get_number l (str "TRIGGER:AUXLEVEL") level w K) as (y & w' & E & K' & R); [apply IL; left; reflexivity|chars|reflexivity|].
        exists y, w'. split; [|auto]. unfold level_456. rewrite EL, EA. exact E.
      * destruct (get_number l (level_key src) level w K) as (y & w' & E & K' & R); [apply IL; left; reflexivity|exact PL|exact SW|].
        exists y, w'. split; [|auto]. unfold level_456. rewrite EL, EA. exact E.
Qed.
Lemma level_levels src level e : source_ok f s e src -> e = false -> levels f src level = [(level_key src, sci 6 level)].
Proof.
  intros S ->. destruct f; [reflexivity|]. destruct S as [(i & _ & ->)|[S _]]; [|discriminate S].
  unfold levels. rewrite alias_not_line, alias_not_aux. reflexivity.
Qed.
Lemma gives_timeout l src level timeout p h h' w (P : option trigger -> Prop) :
  knows reg n l w -> source_ok f s false src -> In (str "TRIGGER:A:TIMEOUT:SOURCE", src) l -> In (str "TRIGGER:A:TIMEOUT:TIME", sci 6 timeout) l ->
  In (str "TRIGGER:A:TIMEOUT:POLARITY", stays_text p) l -> In (level_key src, sci 6 level) l ->
  reads_back fl h h' ->
  (forall t', trigger_back f fl (TriggerEdgeTimeout src level timeout (inl p) h) t' -> P (Some t')) ->
  yields (iobind (get_timeout dev fl level_of h') (fun t => ret (Some t))) w P.
Proof.
  intros K S I1 I2 I3 I4 RH HP. unfold get_timeout.
  apply yields_assoc. eapply (yields_ask l "TRIGGER:A:TIMEOUT:SOURCE" src); try eassumption; try reflexivity;
    [chars|exact (proj1 (word_source f s _ src S))|eapply no_dot_source; eassumption|].
  intros r1 w1 K1 R1. assert (r1 = src) as ->.
  { destruct (source_reply f s false src r1 S R1) as [->|(E1 & E2 & _)]; [reflexivity|]. rewrite E1, E2 in S. destruct S as [(i & _ & E)|[E _]]; discriminate E. }
  destruct (level_knows l false src level w1 S) as (y & w2 & E2 & K2 & LB); [|exact K1|].
  { rewrite (level_levels src level false S eq_refl). intros x [<-|[]]. exact I4. }
  apply yields_assoc. eapply yields_bind; [exact E2|].
  apply yields_assoc. eapply (yields_float l _ timeout); try eassumption; try reflexivity; [chars|].
  intros y3 w3 K3 R3. apply yields_assoc. eapply (yields_ask l "TRIGGER:A:TIMEOUT:POLARITY" (stays_text p)); try eassumption; try reflexivity; [chars|apply word_stays|apply dot_stays|].
  intros r4 w4 K4 R4. eapply yields_bind; [reflexivity|]. apply yields_ret, HP. rewrite (read_stays p r4 R4).
  cbn [trigger_back]. auto.
Qed.
Lemma gives_pulse l src level wi c (pos : bool) h h' w (P : option trigger -> Prop) :
  knows reg n l w -> source_ok f s false src -> width_ok wi c -> In (str "TRIGGER:A:PULSEWIDTH:SOURCE", src) l -> incl (widths wi) l ->
  In (str "TRIGGER:A:PULSEWIDTH:WHEN", when_text c) l -> In (str "TRIGGER:A:PULSEWIDTH:POLARITY", if pos then str "POSITIVE" else str "NEGATIVE") l ->
  In (level_key src, sci 6 level) l -> reads_back fl h h' ->
  (forall t', trigger_back f fl (TriggerPulseWidth src level wi (inl c) pos h) t' -> P (Some t')) ->
  yields (iobind (get_pulse_width dev fl level_of h') (fun t => ret (Some t))) w P.
Proof.
  intros K S WO I1 I2 I3 I4 I5 RH HP. unfold get_pulse_width.
  apply yields_assoc. eapply (yields_ask l "TRIGGER:A:PULSEWIDTH:SOURCE" src); try eassumption; try reflexivity;
    [chars|exact (proj1 (word_source f s _ src S))|eapply no_dot_source; eassumption|].
  intros r1 w1 K1 R1. assert (r1 = src) as ->.
  { destruct (source_reply f s false src r1 S R1) as [->|(E1 & E2 & _)]; [reflexivity|]. rewrite E1, E2 in S. destruct S as [(i & _ & E)|[E _]]; discriminate E. }
  destruct (level_knows l false src level w1 S) as (y & w2 & E2 & K2 & LB); [|exact K1|].
  { rewrite (level_levels src level false S eq_refl). intros x [<-|[]]. exact I5. }
  apply yields_assoc. eapply yields_bind; [exact E2|].
  apply yields_assoc. eapply (yields_ask l "TRIGGER:A:PULSEWIDTH:WHEN" (when_text c)); try eassumption; try reflexivity; [chars|apply word_when|apply dot_when|].
  intros r4 w4 K4 R4. apply yields_assoc.
  eapply (yields_ask l "TRIGGER:A:PULSEWIDTH:POLARITY" (if pos then str "POSITIVE" else str "NEGATIVE")); try eassumption; try reflexivity; [chars|destruct pos; chars|destruct pos; nodot|].
  intros r5 w5 K5 R5. rewrite (read_when c r4 R4), (read_positive pos r5 R5).
  assert (ranged (inl (exclusive c)) = match wi with Width _ => false | Limits _ _ => true end) as -> by (destruct c, wi; try contradiction; reflexivity).
  destruct wi as [a|a b].
  - apply yields_assoc. eapply (yields_float l _ a); try eassumption; try reflexivity; [apply I2; left; reflexivity|chars|].
    intros y6 w6 K6 R6. eapply yields_bind; [reflexivity|]. apply yields_ret, HP. cbn [trigger_back width_back].
    split; [reflexivity|]. split; [exact LB|]. split; [exact R6|]. split; [exists c; auto|]. split; [reflexivity|exact RH].
  - apply yields_assoc. eapply (yields_float l _ a); try eassumption; try reflexivity; [apply I2; left; reflexivity|chars|].
    intros y6 w6 K6 R6. apply yields_assoc. eapply (yields_float l _ b); try eassumption; try reflexivity; [apply I2; right; left; reflexivity|chars|].
    intros y7 w7 K7 R7. eapply yields_bind; [reflexivity|]. apply yields_ret, HP. cbn [trigger_back width_back].
    split; [reflexivity|]. split; [exact LB|]. split; [split; [exact R6|exact R7]|]. split; [exists c; auto|]. split; [reflexivity|exact RH].
Qed.

Definition norm_source (r : pystr) : pystr :=
  match f with F4000 => r | F456 => if str_eqb r (str "AUXILIARY") then str "AUX" else r end.
Lemma norm_reply e src r : source_ok f s e src -> In r (replies f src) -> norm_source r = src.
Proof.
  intros S I. unfold norm_source. destruct (source_reply f s e src r S I) as [->|(-> & -> & ->)]; [|reflexivity].
  destruct f; [reflexivity|]. destruct (source_cases F456 s e src S) as [[c ->]|[->| ->]]; [destruct c; reflexivity|reflexivity..].
Qed.
Definition get_edge (h' : Q) : io D trigger := match f with F4000 => get_edge_4000 dev fl h' | F456 => get_edge_456 dev fl h' end.
Lemma get_edge_eq h' : get_edge h' =
  iobind (ask dev (str "TRIGGER:A:EDGE:SOURCE?")) (fun r => iobind (level_of (norm_source r)) (fun level =>
  iobind (ask dev (str "TRIGGER:A:EDGE:SLOPE?")) (fun slope => iobind (ask dev (str "TRIGGER:A:EDGE:COUPLING?")) (fun coupling =>
  ret (TriggerEdge (norm_source r) level (read_polarity slope) (str_eqb coupling (str "DC")) h'))))).
Proof. unfold get_edge, level_of, norm_source. destruct f; reflexivity. Qed.
Lemma gives_edge l src level p (dc : bool) h h' w (P : option trigger -> Prop) :
  knows reg n l w -> source_ok f s true src -> In (str "TRIGGER:A:EDGE:SOURCE", src) l -> incl (levels f src level) l ->
  In (str "TRIGGER:A:EDGE:SLOPE", edge_text p) l ->
  In (str "TRIGGER:A:EDGE:COUPLING", if dc then str "DC" else match f with F4000 => str "AC" | F456 => str "LFREJ" end) l ->
  reads_back fl h h' ->
  (forall t', trigger_back f fl (TriggerEdge src level (inl p) dc h) t' -> P (Some t')) ->
  yields (iobind (get_edge h') (fun t => ret (Some t))) w P.
Proof.
  intros K S I1 I2 I3 I4 RH HP. rewrite get_edge_eq.
  apply yields_assoc. eapply (yields_ask l "TRIGGER:A:EDGE:SOURCE" src); try eassumption; try reflexivity;
    [chars|exact (proj1 (word_source f s _ src S))|eapply no_dot_source; eassumption|].
  intros r1 w1 K1 R1. rewrite (norm_reply true src r1 S R1).
  destruct (level_knows l true src level w1 S I2 K1) as (y & w2 & E2 & K2 & LB).
  apply yields_assoc. eapply yields_bind; [exact E2|].
  apply yields_assoc. eapply (yields_ask l "TRIGGER:A:EDGE:SLOPE" (edge_text p)); try eassumption; try reflexivity; [chars|apply word_edge|apply dot_edge|].
  intros r3 w3 K3 R3. apply yields_assoc.
  eapply (yields_ask l "TRIGGER:A:EDGE:COUPLING"); try eassumption; try reflexivity; [chars|destruct dc; [|destruct f]; chars|destruct dc; [|destruct f]; nodot|].
  intros r4 w4 K4 R4. eapply yields_bind; [reflexivity|]. apply yields_ret, HP. rewrite (read_edge p r3 R3).
  cbn [trigger_back]. split; [reflexivity|]. split; [exact LB|]. split; [reflexivity|]. split; [|exact RH].
  clear -R4. destruct dc, f; repeat (destruct R4 as [<-|R4]; [reflexivity|]); destruct R4.
Qed.
Definition some (m : io D trigger) : io D (option trigger) := iobind m (fun t => ret (Some t)).
Definition class_4000 (c : pystr) (h : Q) : io D (option trigger) :=
  if one_of c [str "TIMEO"; str "TIMEOUT"] then some (get_timeout dev fl level_of h)
  else if one_of c [str "WID"; str "WIDTH"] then some (get_pulse_width dev fl level_of h) else ret None.
Definition dispatch (r : pystr) (h : Q) : io D (option trigger) :=
  if one_of r [str "EDG"; str "EDGE"] then some (get_edge h)
  else match f with
       | F4000 => if one_of r [str "PULS"; str "PULSE"] then iobind (ask dev (str "TRIGGER:A:PULSE:CLASS?")) (fun c => class_4000 c h) else ret None
       | F456 => class_4000 r h
       end.
Definition get_trigger : io D (option trigger) := match f with F4000 => get_trigger_4000 dev fl | F456 => get_trigger_456 dev fl end.
Lemma get_trigger_eq : get_trigger =
  iobind (ask dev (str "TRIGGER:A:TYPE?")) (fun r => iobind (get_float dev fl (str "TRIGGER:A:HOLDOFF:TIME")) (dispatch r)).
Proof. unfold get_trigger, dispatch, class_4000, get_edge, level_of, some. destruct f; reflexivity. Qed.
Lemma yields_trigger l v h w P : knows reg n l w -> In (str "TRIGGER:A:TYPE", v) l -> word v -> ~ In 46 v ->
  In (str "TRIGGER:A:HOLDOFF:TIME", sci 6 h) l ->
  (forall r h' w', knows reg n l w' -> In r (replies f v) -> reads_back fl h h' -> yields (dispatch r h') w' P) -> yields get_trigger w P.
Proof.
  intros K I W N IH G. rewrite get_trigger_eq. eapply (yields_ask l "TRIGGER:A:TYPE" v); try eassumption; try reflexivity; [chars|].
  intros r1 w1 K1 R1. eapply (yields_float l _ h); try eassumption; try reflexivity; [chars|]. intros h' w2 K2 R2. apply G; assumption.
Qed.
Lemma yields_class c l h w P : In c ["TIMEOUT"; "WIDTH"]%string -> knows reg n l w -> incl (kind f c) l -> In (str "TRIGGER:A:HOLDOFF:TIME", sci 6 h) l ->
  (forall r h' w', knows reg n l w' -> In r (replies f (str c)) -> reads_back fl h h' -> yields (class_4000 r h') w' P) -> yields get_trigger w P.
Proof.
  intros IC K IK IH G. assert (word (str c) /\ ~ In 46 (str c)) as [WC NC].
  { destruct IC as [<-|[<-|[]]]; (split; [chars|nodot]). }
  assert (f = F4000 \/ f = F456) as [Ef|Ef] by (destruct f; auto).
  - eapply (yields_trigger l (str "PULSE") h); try eassumption; [apply IK; rewrite Ef; left; reflexivity|chars|nodot|].
    intros r1 h' w1 K1 R1 RH. unfold dispatch. replace (one_of r1 [str "EDG"; str "EDGE"]) with false.
    2: { rewrite Ef in R1. repeat (destruct R1 as [<-|R1]; [reflexivity|]); destruct R1. }
    rewrite Ef. replace (one_of r1 [str "PULS"; str "PULSE"]) with true.
    2: { rewrite Ef in R1. repeat (destruct R1 as [<-|R1]; [reflexivity|]); destruct R1. }
    eapply (yields_ask l "TRIGGER:A:PULSE:CLASS" (str c)); try eassumption; try reflexivity; [apply IK; rewrite Ef; right; left; reflexivity|chars|].
    intros r2 w2 K2 R2. apply G; assumption.
  - eapply (yields_trigger l (str c) h); try eassumption; [apply IK; rewrite Ef; left; reflexivity|].
    intros r1 h' w1 K1 R1 RH. unfold dispatch. replace (one_of r1 [str "EDG"; str "EDGE"]) with false.
    2: { rewrite Ef in R1. destruct IC as [<-|[<-|[]]]; repeat (destruct R1 as [<-|R1]; [reflexivity|]); destruct R1. }
    rewrite Ef. apply G; assumption.
Qed.
Lemma gives_trigger t w : trigger_ok f s t -> knows reg n (trigger_writes f t) w -> gives dev fl f (ATrigger t) w.
Proof.
  intros OK K. cbn [gives]. change (yields get_trigger w (fun r => exists t', r = Some t' /\ trigger_back f fl t t')).
  set (P := fun r => exists t', r = Some t' /\ trigger_back f fl t t').
  assert (forall t', trigger_back f fl t t' -> P (Some t')) as HP by (intros t' B; exists t'; auto). clearbody P.
  destruct t as [src level slope dc h|src level timeout slope h|src level wi c pos h|]; cbn [trigger_ok] in OK; [..|destruct OK].
  - destruct OK as [S [p ->]]. cbn [trigger_writes slope_of] in K. match type of K with knows _ _ ?a _ => set (l := a) in K end.
    eapply (yields_trigger l (str "EDGE") h); [exact K|left; reflexivity|chars|nodot| |].
    { apply in_app3. right. right. right. right. left. reflexivity. }
    intros r1 h' w1 K1 R1 RH. unfold dispatch. replace (one_of r1 [str "EDG"; str "EDGE"]) with true.
    2: { clear -R1. destruct f; repeat (destruct R1 as [<-|R1]; [reflexivity|]); destruct R1. }
    eapply (gives_edge l src level p dc); try eassumption.
    + apply in_app3. left. right. left. reflexivity.
    + intros kv I. apply in_app3. auto.
    + apply in_app3. right. right. left. reflexivity.
    + apply in_app3. right. right. right. left. reflexivity.
  - destruct OK as [S [p ->]]. cbn [trigger_writes slope_of] in K. match type of K with knows _ _ ?a _ => set (l := a) in K end.
    eapply (yields_class "TIMEOUT" l h); [left; reflexivity|exact K| | |].
    { intros kv I. apply in_or_app. auto. } { apply in_or_app. right. cbn [In]. tauto. }
    intros r1 h' w1 K1 R1 RH. unfold class_4000. replace (one_of r1 [str "TIMEO"; str "TIMEOUT"]) with true.
    2: { clear -R1. destruct f; repeat (destruct R1 as [<-|R1]; [reflexivity|]); destruct R1. }
    eapply (gives_timeout l src level timeout p); try eassumption; apply in_or_app; right; cbn [In]; tauto.
  - destruct OK as [S [c' [-> WO]]]. cbn [trigger_writes when_of] in K. match type of K with knows _ _ ?a _ => set (l := a) in K end.
    assert (forall kv, In kv (kind f "WIDTH") \/ In kv [key "TRIGGER:A:PULSEWIDTH:SOURCE" src; (level_key src, sci 6 level)] \/ In kv (widths wi) \/
      In kv [key "TRIGGER:A:PULSEWIDTH:WHEN" (when_text c'); key "TRIGGER:A:PULSEWIDTH:POLARITY" (if pos then str "POSITIVE" else str "NEGATIVE");
        key "TRIGGER:A:HOLDOFF:TIME" (sci 6 h)] -> In kv l) as IL by (intros kv; unfold l; rewrite !in_app_iff; tauto).
    eapply (yields_class "WIDTH" l h); [right; left; reflexivity|exact K| | |].
    { intros kv I. apply IL. auto. } { apply IL. cbn [In]. tauto. }
    intros r1 h' w1 K1 R1 RH. unfold class_4000. replace (one_of r1 [str "TIMEO"; str "TIMEOUT"]) with false.
    2: { clear -R1. destruct f; repeat (destruct R1 as [<-|R1]; [reflexivity|]); destruct R1. }
    replace (one_of r1 [str "WID"; str "WIDTH"]) with true.
    2: { clear -R1. destruct f; repeat (destruct R1 as [<-|R1]; [reflexivity|]); destruct R1. }
    eapply (gives_pulse l src level wi c' pos); try eassumption; try (apply IL; cbn [In]; tauto).
    intros kv I. apply IL. auto.
Qed.
Lemma gives_all a w : assignment_ok f s a -> knows reg n (depends f a) w -> gives dev fl f a w.
Proof.
  intros OK K. destruct a as [c q v|c dc|c on|c t|c x|v|v|i|m|t]; try (apply gives_simple; [discriminate|exact OK|exact K]).
  apply gives_trigger; [apply OK|exact K].
Qed.
End Read.
