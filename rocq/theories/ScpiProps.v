(** C19-C22: parsing SCPI replies. *)
From Coq Require Import String ZArith Bool List Lia.
Import ListNotations.
From Verif Require Import Base PyStr ScpiModel ScpiSpec ScpiProofs.
Local Open Scope Z_scope.
Local Open Scope result_scope.

(** * C19: splitting into commands *)

(** Every nonempty text is cut exactly at the semicolons outside of quotes,
    after removing one final colon and then the semicolons at both ends. *)
Theorem C19_cut_outside_quotes : forall data, data <> [] -> exists s k m,
  split_commands data = Ok (cut false s) /\
  (data = repeat 59 k ++ s ++ repeat 59 m \/ data = (repeat 59 k ++ s ++ repeat 59 m) ++ [58]) /\
  (forall s', s <> 59 :: s') /\ (forall s', s <> s' ++ [59]).
Proof.
  intros data N. destruct (clean_spec data N) as (s & k & m & C & H). exists s, k, m. split; [|exact H].
  apply split_commands_cut. exact C.
Qed.
Print Assumptions C19_cut_outside_quotes.

(** Commands with balanced quotes come back as they were sent. *)
Theorem C19_commands : forall cs first last, Forall (fun d => tidy false d = true) cs ->
  (exists l, cs = first :: l) -> (exists l, cs = l ++ [last]) -> first <> [] -> last <> [] -> (forall d, last <> d ++ [58]) ->
  split_commands (join 59 cs) = Ok cs.
Proof.
  intros cs d0 dn T E0 En N0 Nn C. rewrite (split_commands_cut _ _ (clean_join cs d0 dn T E0 En N0 Nn C)).
  rewrite cut_join; [reflexivity | destruct E0 as [l ->]; discriminate | exact T].
Qed.
Print Assumptions C19_commands.

(** A quoted value is returned unchanged by parse_scpi, whatever semicolons,
    colons or spaces it contains. *)
Theorem C19_quoted_value : forall k body, name k -> ~ In 34 body ->
  parse_scpi_flat id None (58 :: k ++ 32 :: 34 :: body ++ [34]) = Ok [(58 :: upper k, 34 :: body ++ [34])].
Proof.
  intros k body N B. assert (T : tidy false (34 :: body ++ [34]) = true).
  { cbn [tidy]. change (34 =? 34) with true. cbn [negb].
    clear - B. induction body as [|c body IH]; [reflexivity|]. cbn [app tidy].
    destruct (Z.eqb_spec c 34) as [->|Nc]; [exfalso; apply B; left; reflexivity|].
    assert (IH' : tidy true (body ++ [34]) = true) by (apply IH; intro I; apply B; right; exact I).
    destruct (c =? 59); exact IH'. }
  assert (A : assignments id None (join 59 [58 :: k ++ 32 :: 34 :: body ++ [34]]) = Ok [([upper k], 34 :: body ++ [34])]).
  { apply (assignments_reply id None [([k], 34 :: body ++ [34])]).
    - apply (reply_cons [] [k] (34 :: body ++ [34]) (58 :: join 58 [k]) [] []); constructor.
    - constructor; [|constructor]. repeat split; try discriminate; try exact T. constructor; [exact N | constructor].
    - discriminate.
    - cbn [last fst]. intros d v' E. injection E. intro X. change (34 :: body ++ [34]) with ((34 :: body) ++ [34]) in X. apply app_inj_tail in X. destruct X as [_ X]. discriminate.
    - constructor; [|constructor]. exists None. split; [repeat constructor | reflexivity]. }
  rewrite parse_flat_eq. cbn [join] in A. rewrite A. reflexivity.
Qed.
Print Assumptions C19_quoted_value.

Example C19_witness :
  split_commands (str ":A ""x;y"";B 1;:C ""p"" ;D "":;:"";") =
  Ok [str ":A ""x;y"""; str "B 1"; str ":C ""p"" "; str "D "":;:"""].
Proof. vm_compute. reflexivity. Qed.
Example C19_witness_tidy : let cs := [str ":A ""x;y"""; str "B 1"] in
  Forall (fun d => tidy false d = true) cs /\ forall d, str "B 1" <> d ++ [58].
Proof. split; [repeat constructor|]. intros d E. apply (f_equal (fun s => last s 0)) in E. rewrite last_last in E. discriminate. Qed.

(** * C20: flat dictionaries *)

(** Printing settings, with full or relative headers in any spelling the types
    accept, and parsing the joined reply gives a dictionary whose entries are
    the canonical headers with their last values. *)
Theorem C20_flat_round_trip : forall V (raw : pystr -> V) types0 settings cs rs,
  settings <> [] -> Forall well_formed settings -> last_text_ok settings ->
  reply [] settings cs -> Forall2 (stored raw types0) settings rs ->
  exists d, parse_scpi_flat raw types0 (join 59 cs) = Ok d /\ NoDup (map fst d) /\
    forall k v, dget d k = Some v <-> last_value (map (fun r => (58 :: join 58 (fst r), snd r)) rs) k v.
Proof.
  intros V raw types0 settings cs rs N W L R S. exists (flat_state rs). rewrite parse_flat_eq.
  rewrite (assignments_reply raw types0 _ _ _ R W N (last_text_last _ N L) S).
  split; [reflexivity|]. split; [apply (flat_nodup raw)|]. intros k v. apply flat_get.
Qed.
Print Assumptions C20_flat_round_trip.

(** Without types every header is kept in capitals and every value verbatim. *)
Theorem C20_flat_untyped : forall settings cs,
  settings <> [] -> Forall well_formed settings -> last_text_ok settings -> reply [] settings cs ->
  exists d, parse_scpi_flat id None (join 59 cs) = Ok d /\ NoDup (map fst d) /\
    forall k v, dget d k = Some v <-> last_value (map (fun s => (58 :: upper (join 58 (fst s)), snd s)) settings) k v.
Proof.
  intros settings cs N W L R.
  destruct (C20_flat_round_trip pystr id None settings cs (map (fun s => (map upper (fst s), snd s)) settings) N W L R) as (d & E & D & G).
  - clear. induction settings as [|[p v] l IH]; [constructor|]. cbn [map]. constructor; [|exact IH].
    exists None. cbn [fst snd]. split; [|reflexivity]. clear. induction p; cbn [map]; constructor. assumption.
  - exists d. split; [exact E|]. split; [exact D|]. intros k v. rewrite G, map_map. cbn [fst snd].
    rewrite (map_ext (fun x : setting => (58 :: join 58 (map upper (fst x)), snd x)) (fun s => (58 :: upper (join 58 (fst s)), snd s)));
      [reflexivity|]. intros [p w]. cbn [fst snd]. rewrite upper_join. reflexivity.
Qed.
Print Assumptions C20_flat_untyped.

(** Without types a text is accepted exactly when every command in it has a
    nonempty header and a value; otherwise parse_scpi raises ValueError or
    IndexError. *)
Theorem C20_accepted : forall V (raw : pystr -> V) data,
  match parse_scpi_flat raw None data with
  | Ok _ => exists l, split_commands data = Ok l /\ Forall command_ok l
  | Err e => (e = ValueError \/ e = IndexError) /\ forall l, split_commands data = Ok l -> ~ Forall command_ok l
  end.
Proof.
  intros V raw data. rewrite parse_flat_eq. unfold assignments.
  destruct (split_commands data) as [l|e] eqn:S; cbn [bind].
  - pose proof (accepts_untyped raw l [] []) as G.
    destruct (foldM (cmd_step raw None) ([], ([], None)) l) as [?|e]; cbn [bind].
    + exists l. auto.
    + destruct G as [G1 G2]. split; [exact G2|]. intros l' E. injection E as <-. exact G1.
  - destruct (split_commands_total data) as [[l E]|[_ E]]; rewrite E in S; [discriminate|]. injection S as <-.
    split; [right; reflexivity|]. discriminate.
Qed.
Print Assumptions C20_accepted.

(** A value that ends the reply with a colon loses it. *)
Theorem C20_trailing_colon_refuted : parse_scpi_flat id None (str ":LABEL:NAME volts:") = Ok [(str ":LABEL:NAME", str "volts")].
Proof. vm_compute. reflexivity. Qed.
(** A header below a node whose type is a callable raises AttributeError. *)
Theorem C20_below_callable_refuted :
  parse_scpi_flat id (Some (TDict [(str "LEVel", TCall (fun v => Ok v))])) (str ":LEVEL:CH1 5") = Err AttributeError.
Proof. vm_compute. reflexivity. Qed.

(** The hypotheses of the round trip are met by a reply with relative headers,
    short and long spellings, typed values and a quoted semicolon. *)
Definition ex_types : option (types (pystr * bool)) :=
  Some (TDict [(str "TRIGger", TDict [(str "A", TDict [(str "LEVel|CH<1-2>", TCall (fun v => Ok (v, true)))])])]).
Definition ex_settings : list setting :=
  [([str "TRIG"; str "a"; str "lev"], str """1;2"""); ([str "Trig"; str "A"; str "ch2"], str "0"); ([str "OTHER"], str "x")].
Definition ex_commands := [str ":TRIG:a:lev ""1;2"""; str "ch2 0"; str ":OTHER x"].
Definition ex_stored : list (path * (pystr * bool)) :=
  [([str "TRIGGER"; str "A"; str "LEVEL"], (str """1;2""", true)); ([str "TRIGGER"; str "A"; str "CH2"], (str "0", true));
   ([str "OTHER"], (str "x", false))].
Ltac is_name := refine (conj _ (conj _ (conj _ (conj _ (conj _ _))))); [discriminate | ..]; let I := fresh in intro I; vm_compute in I; intuition discriminate.
Ltac words := vm_compute; repeat constructor.
Example C20_witness : ex_settings <> [] /\ Forall well_formed ex_settings /\ last_text_ok ex_settings /\
  reply [] ex_settings ex_commands /\ Forall2 (stored (fun v => (v, false)) ex_types) ex_settings ex_stored.
Proof.
  refine (conj _ (conj _ (conj _ (conj _ _)))).
  - discriminate.
  - repeat (constructor; [split; [discriminate|]; split; [|reflexivity]; repeat (constructor; [is_name|]); constructor|]). constructor.
  - intros l' s E v X. change ex_settings with ([([str "TRIG"; str "a"; str "lev"], str """1;2"""); ([str "Trig"; str "A"; str "ch2"], str "0")] ++ [([str "OTHER"], str "x")] : list setting) in E.
    apply app_inj_tail in E. destruct E as [_ <-]. cbn [snd] in X. apply (f_equal (fun s => last s 0)) in X. rewrite last_last in X. discriminate.
  - apply (reply_cons [] _ _ (str ":TRIG:a:lev")); [apply (absolute [] [str "TRIG"; str "a"; str "lev"])|].
    apply (reply_cons _ _ _ (str "ch2")); [apply (relative _ [str "Trig"; str "A"] [str "ch2"]); [reflexivity | discriminate]|].
    apply (reply_cons _ _ _ (str ":OTHER")); [apply (absolute _ [str "OTHER"])|]. constructor.
  - assert (A : forall t0, selects [(str "TRIGger", t0 : types (pystr * bool))] (str "TRIG") (str "TRIGger") t0).
    { intro t0. exists [], (str "TRIGger"), [], [Word (str "TRIGger")]. repeat split; [words | | easy].
      exists [], []. repeat split; [|easy]. apply spelled; [discriminate | reflexivity]. }
    assert (B : forall t0, selects [(str "A", t0 : types (pystr * bool))] (str "A") (str "A") t0).
    { intro t0. exists [], (str "A"), [], [Word (str "A")]. repeat split; [words | | easy].
      exists [], []. repeat split; [|easy]. apply spelled; [discriminate | reflexivity]. }
    assert (F : Forall is_alternative [Word (str "LEVel"); Numbered (str "CH") 1 2]).
    { repeat constructor; try discriminate. }
    constructor; [|constructor; [|constructor; [|constructor]]].
    + exists (Some (TCall (fun v => Ok (v, true)))). split; [|reflexivity]. cbn [fst].
      eapply (res_known _ (str "TRIG") (str "TRIGger")); [apply A|]. eapply (res_known _ (str "a") (str "A")); [apply B|].
      eapply (res_known _ (str "lev") (str "LEVel")); [|constructor].
      exists [], (str "LEVel|CH<1-2>"), [], [Word (str "LEVel"); Numbered (str "CH") 1 2]. repeat split; [exact F | | easy].
      exists [], [str "CH1"; str "CH2"]. repeat split; [|easy]. apply spelled; [discriminate | reflexivity].
    + exists (Some (TCall (fun v => Ok (v, true)))). split; [|reflexivity]. cbn [fst].
      eapply (res_known _ (str "Trig") (str "TRIGger")); [apply A|]. eapply (res_known _ (str "A") (str "A")); [apply B|].
      eapply (res_known _ (str "ch2") (str "CH2")); [|constructor].
      exists [], (str "LEVel|CH<1-2>"), [], [Word (str "LEVel"); Numbered (str "CH") 1 2]. repeat split; [exact F | | easy].
      exists [str "LEVel"; str "CH1"], []. repeat split.
      * apply spelled; [discriminate | reflexivity].
      * intros x [<-|[<-|[]]]; (apply not_spelled; [discriminate | reflexivity]).
    + exists None. split; [|reflexivity]. cbn [fst].
      apply (res_unknown _ (str "OTHER")); [|constructor].
      intros kd t0 [E|[]]. injection E as <- <-. exists [Word (str "TRIGger")]. repeat split; [discriminate | words|].
      intros x [<-|[]]. apply not_spelled; [discriminate | reflexivity].
Qed.
Example C20_witness_result :
  parse_scpi_flat (fun v => (v, false)) ex_types (join 59 ex_commands) =
  Ok [(str ":TRIGGER:A:LEVEL", (str """1;2""", true)); (str ":TRIGGER:A:CH2", (str "0", true)); (str ":OTHER", (str "x", false))].
Proof. vm_compute. reflexivity. Qed.

(** * C21: nested dictionaries *)

(** The nested and the flat form accept the same texts and fail with the same
    exception. *)
Theorem C21_same_errors : forall V (raw : pystr -> V) types0 data e,
  parse_scpi_flat raw types0 data = Err e <-> parse_scpi_nested raw types0 data = Err e.
Proof.
  intros. rewrite parse_flat_eq, parse_nested_eq. destruct (assignments raw types0 data); cbn [bind]; split; intro E; congruence.
Qed.
Print Assumptions C21_same_errors.

(** The nested dictionary holds a value at a path exactly when nothing was
    assigned later at that path, above it or below it. *)
Theorem C21_nested_exact : forall V (raw : pystr -> V) types0 settings cs rs,
  settings <> [] -> Forall well_formed settings -> last_text_ok settings ->
  reply [] settings cs -> Forall2 (stored raw types0) settings rs ->
  exists t, parse_scpi_nested raw types0 (join 59 cs) = Ok t /\ forall p v, tget t p = Some v <-> survives rs p v.
Proof.
  intros V raw types0 settings cs rs N W L R S. exists (nested_state rs). rewrite parse_nested_eq.
  pose proof (assignments_reply raw types0 _ _ _ R W N (last_text_last _ N L) S) as A.
  rewrite A. split; [reflexivity|]. intros p v. apply nested_get. eapply assignments_nonnil. exact A.
Qed.
Print Assumptions C21_nested_exact.

(** Without conflicting headers both forms hold the same values at
    corresponding keys. *)
Theorem C21_agree : forall V (raw : pystr -> V) types0 settings cs rs,
  settings <> [] -> Forall well_formed settings -> last_text_ok settings ->
  reply [] settings cs -> Forall2 (stored raw types0) settings rs -> conflict_free rs ->
  exists d t, parse_scpi_flat raw types0 (join 59 cs) = Ok d /\ parse_scpi_nested raw types0 (join 59 cs) = Ok t /\
    (forall p v, p <> [] -> Forall (fun k => ~ In 58 k) p -> tget t p = Some v <-> dget d (58 :: join 58 p) = Some v) /\
    (forall k v, dget d k = Some v -> exists p, k = 58 :: join 58 p /\ tget t p = Some v) /\
    (forall p v, tget t p = Some v -> dget d (58 :: join 58 p) = Some v).
Proof.
  intros V raw types0 settings cs rs N W L R S C.
  destruct (C20_flat_round_trip V raw types0 settings cs rs N W L R S) as (d & Ed & _ & Gd).
  destruct (C21_nested_exact V raw types0 settings cs rs N W L R S) as (t & Et & Gt).
  assert (Cs : forall r, In r rs -> fst r <> [] /\ Forall (fun c => ~ In 58 c) (fst r)).
  { clear - W S. induction S as [|s r l rs S1 S IH]; intros x I; [destruct I|]. inversion W as [|? ? (W1 & W2 & _) W']; subst.
    destruct I as [<-|I]; [|exact (IH W' x I)]. destruct S1 as (ty & R1 & _). split.
    - intro E. apply resolves_length in R1. rewrite E in R1. destruct (fst s); [contradiction | discriminate].
    - eapply resolves_no_colon; eassumption. }
  assert (G : forall p v, p <> [] -> Forall (fun k => ~ In 58 k) p -> tget t p = Some v <-> dget d (58 :: join 58 p) = Some v).
  { intros p v Np Fp. rewrite Gt, Gd, (survives_last rs p v C).
    rewrite (last_value_map (fun p => 58 :: join 58 p) rs p v); [reflexivity|].
    intros r I E. destruct (Cs r I) as [A B]. apply join_inj; try assumption. injection E. auto. }
  exists d, t. repeat split; try assumption; try apply G; try assumption.
  - intros k v E. apply Gd in E as E'. destruct E' as (l1 & l2 & El & _).
    assert (I : In (k, v) (map (fun r => (58 :: join 58 (fst r), snd r)) rs)) by (rewrite El; apply in_app_iff; right; left; reflexivity).
    apply in_map_iff in I. destruct I as ([p w] & Ek & I). cbn [fst snd] in Ek. injection Ek as <- ->.
    exists p. split; [reflexivity|]. destruct (Cs _ I) as [A B]. apply G; assumption.
  - intros p v E. apply Gt in E as E'. destruct E' as (l1 & l2 & El & _).
    assert (I : In (p, v) rs) by (rewrite El; apply in_app_iff; right; left; reflexivity).
    destruct (Cs _ I) as [A B]. apply G; assumption.
Qed.
Print Assumptions C21_agree.

(** In particular a value is lost when a header below it follows: the documented
    example reply itself. *)
Theorem C21_conflict_refuted :
  exists d t, parse_scpi_flat id None (str ":TRIGGER:A:MODE AUTO;LEVEL 20.0000E-3;LEVEL:CH1 5") = Ok d /\
    parse_scpi_nested id None (str ":TRIGGER:A:MODE AUTO;LEVEL 20.0000E-3;LEVEL:CH1 5") = Ok t /\
    dget d (str ":TRIGGER:A:LEVEL") = Some (str "20.0000E-3") /\
    tget t [str "TRIGGER"; str "A"; str "LEVEL"] = None /\
    tget t [str "TRIGGER"; str "A"; str "LEVEL"; str "CH1"] = Some (str "5").
Proof. eexists _, _. split; [vm_compute; reflexivity|]. split; [vm_compute; reflexivity|]. repeat split. Qed.
Example C21_witness : conflict_free ex_stored.
Proof.
  intros a b [<-|[<-|[<-|[]]]] [<-|[<-|[<-|[]]]] [r E]; cbn [fst] in *; try reflexivity; discriminate.
Qed.

(** * C22: keyword matching *)

(** A header node against a types dictionary with a single key: the node is
    replaced by the first keyword of which it is a spelling and its value is
    converted; a node that is no spelling stays as it is, unconverted. *)
Theorem C22_match : forall V (raw : pystr -> V) f alts k v w, alts <> [] -> Forall is_alternative alts -> name k ->
  tidy false v = true -> (forall v', v <> v' ++ [58]) -> f v = Ok w ->
  let parsed := parse_scpi_flat raw (Some (TDict [(print_key alts, TCall f)])) (58 :: k ++ 32 :: v) in
  (forall kw, first_spelled (keywords alts) (upper k) kw -> parsed = Ok [(58 :: upper kw, w)]) /\
  ((forall kw, In kw (keywords alts) -> ~ spelling kw (upper k)) -> parsed = Ok [(58 :: upper k, raw v)]).
Proof.
  intros V raw f alts k v w Na Fa Nk T C Fv parsed.
  assert (G : forall c x, stored raw (Some (TDict [(print_key alts, TCall f)])) ([k], v) ([c], x) -> parsed = Ok [(58 :: c, x)]).
  { intros c x S. pose proof (assignments_reply raw (Some (TDict [(print_key alts, TCall f)])) [([k], v)] [58 :: k ++ 32 :: v] [([c], x)]) as A.
    cbn [join] in A. unfold parsed. rewrite parse_flat_eq, A.
    - reflexivity.
    - apply (reply_cons [] [k] v (58 :: join 58 [k]) [] []); constructor.
    - constructor; [|constructor]. repeat split; try discriminate; try exact T. constructor; [exact Nk | constructor].
    - discriminate.
    - intros d v' E. injection E. apply C.
    - constructor; [exact S | constructor]. }
  split.
  - intros kw S. apply G. exists (Some (TCall f)). split; [|exact Fv]. cbn [fst].
    apply res_known with (t0 := TCall f); [|constructor]. exists [], (print_key alts), [], alts. repeat split; [exact Fa | exact S | easy].
  - intros R. apply G. exists None. split; [|reflexivity]. cbn [fst]. apply res_unknown; [|constructor].
    intros kd t0 [E|[]]. injection E as <- <-. exists alts. auto.
Qed.
Print Assumptions C22_match.

(** The long form and the short form of every keyword are spellings of it. *)
Theorem C22_long_and_short : forall kw, Forall (fun c => is_word c = true) kw ->
  spelling kw (upper kw) /\ spelling kw (filter (fun c => negb (is_lower c)) kw).
Proof. intros kw F. split; [apply spelling_long; exact F | apply spelling_short]. Qed.
Print Assumptions C22_long_and_short.

(** For a keyword made of capitals followed by lower case letters no other
    abbreviation is accepted. *)
Theorem C22_no_other_abbreviation : forall caps run k, Forall (fun c => is_lower c = false) caps -> run <> [] -> all_lower run ->
  spelling (caps ++ run) k <-> k = caps \/ k = caps ++ upper run.
Proof. exact spelling_caps_run. Qed.
Print Assumptions C22_no_other_abbreviation.

(** "CH<a-b>" stands for exactly the numbers a to b. *)
Theorem C22_numbered : forall w a b x, In x (keywords [Numbered w a b]) <-> exists i, a <= i <= b /\ x = w ++ str_int i.
Proof.
  intros. unfold keywords. cbn [flat_map]. rewrite app_nil_r, in_map_iff. split.
  - intros (i & <- & I). apply zrange_in in I. eauto.
  - intros (i & I & ->). exists i. split; [reflexivity | apply zrange_in; exact I].
Qed.
Print Assumptions C22_numbered.

Example C22_witness_key : print_key [Word (str "WFMOpre"); Word (str "WFMInpre"); Numbered (str "CH") 1 4] = str "WFMOpre|WFMInpre|CH<1-4>".
Proof. reflexivity. Qed.
Example C22_witness :
  let t := Some (TDict [(str "WFMOpre|WFMInpre|CH<1-4>", TCall (fun v => Ok (v, true)))]) in
  let raw v := (v, false) in
  parse_scpi_flat raw t (str ":wfmi 1;:WFMINPRE 2;:wfm 3;:ch4 4;:ch5 5") =
  Ok [(str ":WFMINPRE", (str "2", true)); (str ":WFM", (str "3", false)); (str ":CH4", (str "4", true)); (str ":CH5", (str "5", false))].
Proof. vm_compute. reflexivity. Qed.
Example C22_witness_hyps : let alts := [Word (str "WFMOpre"); Word (str "WFMInpre"); Numbered (str "CH") 1 4] in
  Forall is_alternative alts /\ name (str "wfmi") /\ first_spelled (keywords alts) (upper (str "wfmi")) (str "WFMInpre").
Proof.
  refine (conj _ (conj _ _)); [|is_name|].
  - repeat constructor; discriminate.
  - exists [str "WFMOpre"], [str "CH1"; str "CH2"; str "CH3"; str "CH4"]. repeat split.
    + apply spelled; [vm_compute; discriminate | reflexivity].
    + intros x [<-|[]]. apply not_spelled; [discriminate | reflexivity].
Qed.
