(** Proofs about parse_scpi. *)
From Coq Require Import String ZArith Bool Lia List.
Import ListNotations.
From Verif Require Import Base PyStr PyStrProofs ScpiModel ScpiSpec.
Local Open Scope Z_scope.
Local Open Scope result_scope.

(** ** Text *)
Lemma str_eqb_eq a : forall b, str_eqb a b = true <-> a = b.
Proof.
  induction a as [|x a IH]; intros [|y b]; cbn [str_eqb]; try (split; [easy|]; intro; congruence).
  rewrite andb_true_iff, Z.eqb_eq, IH. split; [intros [-> ->]; reflexivity | intro E; injection E; auto].
Qed.
Lemma str_eqb_refl a : str_eqb a a = true. Proof. apply str_eqb_eq; reflexivity. Qed.
Lemma str_eqb_neq a b : a <> b -> str_eqb a b = false.
Proof. intro N. destruct (str_eqb a b) eqn:E; [apply str_eqb_eq in E; contradiction | reflexivity]. Qed.
Lemma pystr_dec (a b : pystr) : {a = b} + {a <> b}.
Proof. destruct (str_eqb a b) eqn:E; [left; apply str_eqb_eq; exact E | right; intros ->; rewrite str_eqb_refl in E; discriminate]. Qed.
Lemma path_dec (a b : path) : {a = b} + {a <> b}. Proof. decide equality. apply pystr_dec. Qed.

Lemma join_cons c x y l : join c (x :: y :: l) = x ++ c :: join c (y :: l). Proof. reflexivity. Qed.
Lemma split_on_nonnil c s : split_on c s <> [].
Proof. destruct s as [|x s]; cbn [split_on]; [easy|]. destruct (x =? c); [easy|]. destruct (split_on c s); easy. Qed.
Lemma split_on_none c s : ~ In c s -> split_on c s = [s].
Proof.
  induction s as [|x s IH]; intro N; cbn [split_on]; [reflexivity|].
  destruct (Z.eqb_spec x c); [exfalso; apply N; left; auto|].
  rewrite IH; [reflexivity | intro; apply N; right; auto].
Qed.
Lemma split_on_app c p s : ~ In c p -> split_on c (p ++ c :: s) = p :: split_on c s.
Proof.
  induction p as [|x p IH]; intro N; cbn [split_on app].
  - rewrite Z.eqb_refl. reflexivity.
  - destruct (Z.eqb_spec x c); [exfalso; apply N; left; auto|].
    rewrite IH; [reflexivity | intro; apply N; right; auto].
Qed.
Lemma split_on_join c l : l <> [] -> Forall (fun p => ~ In c p) l -> split_on c (join c l) = l.
Proof.
  induction l as [|p [|q l] IH]; intros N F; [easy| |]; inversion F; subst.
  - apply split_on_none; assumption.
  - rewrite join_cons, split_on_app by assumption. f_equal. apply IH; [discriminate | assumption].
Qed.
Lemma join_split c s : join c (split_on c s) = s.
Proof.
  induction s as [|x s IH]; cbn [split_on]; [reflexivity|].
  pose proof (split_on_nonnil c s) as N.
  destruct (Z.eqb_spec x c) as [->|]; destruct (split_on c s) as [|p [|q l]] eqn:E; try easy; cbn [join app] in *; rewrite IH; reflexivity.
Qed.
Lemma split_on_clean c s : Forall (fun p => ~ In c p) (split_on c s).
Proof.
  induction s as [|x s IH]; cbn [split_on]; [repeat constructor; easy|].
  destruct (Z.eqb_spec x c) as [->|]; [constructor; easy|].
  destruct (split_on c s) as [|p ps]; [repeat constructor; intros [?|[]]; congruence|].
  inversion IH; subst. constructor; [intros [?|?]; congruence | assumption].
Qed.
Lemma split1_app c h v : ~ In c h -> split1 c (h ++ c :: v) = Some (h, v).
Proof.
  induction h as [|x h IH]; intro N; cbn [split1 app].
  - rewrite Z.eqb_refl. reflexivity.
  - destruct (Z.eqb_spec x c); [exfalso; apply N; left; auto|].
    rewrite IH by (intro; apply N; right; auto). reflexivity.
Qed.

Lemma upper_char_idem c : upper_char (upper_char c) = upper_char c.
Proof.
  unfold upper_char. destruct ((97 <=? c) && (c <=? 122)) eqn:E; [|rewrite E; reflexivity].
  apply andb_true_iff in E. rewrite !Z.leb_le in E.
  destruct ((97 <=? c - 32) && (c - 32 <=? 122)) eqn:E'; [|reflexivity].
  apply andb_true_iff in E'. rewrite !Z.leb_le in E'. lia.
Qed.
Lemma upper_idem s : upper (upper s) = upper s.
Proof. unfold upper. rewrite map_map. apply map_ext. exact upper_char_idem. Qed.
Lemma upper_in c s : (c < 65 \/ 122 < c) -> (In c (upper s) <-> In c s).
Proof.
  intro B. unfold upper. rewrite in_map_iff. split.
  - intros [x [E I]]. unfold upper_char in E.
    destruct ((97 <=? x) && (x <=? 122)) eqn:L; [apply andb_true_iff in L; rewrite !Z.leb_le in L; lia | subst; exact I].
  - intro I. exists c. split; [|exact I]. unfold upper_char.
    destruct ((97 <=? c) && (c <=? 122)) eqn:L; [apply andb_true_iff in L; rewrite !Z.leb_le in L; lia | reflexivity].
Qed.
Lemma upper_app a b : upper (a ++ b) = upper a ++ upper b. Proof. apply map_app. Qed.
Lemma upper_join l : upper (join 58 l) = join 58 (map upper l).
Proof.
  induction l as [|x [|y l] IH]; [reflexivity..|].
  rewrite join_cons, upper_app. cbn [upper map]. cbn [map] in IH. unfold upper at 2 in IH. fold (upper (join 58 (y :: l))).
  change (map upper_char (join 58 (y :: l))) with (upper (join 58 (y :: l))) in *.
  rewrite IH. reflexivity.
Qed.
Lemma upper_nil s : upper s = [] <-> s = []. Proof. destruct s; split; intro; try reflexivity; discriminate. Qed.

(** ** Splitting respects quotes *)
Lemma odd_count_cons c d : Nat.odd (count 34 (c :: d)) = if c =? 34 then negb (Nat.odd (count 34 d)) else Nat.odd (count 34 d).
Proof.
  unfold count. cbn [filter]. destruct (c =? 34); cbn [length]; [|reflexivity].
  rewrite Nat.odd_succ, <- Nat.negb_odd. reflexivity.
Qed.
Definition glue (p : pystr) (l : list pystr) : list pystr :=
  match l with [] => [p] | x :: l' => (p ++ x) :: l' end.
Lemma cut_nonnil b s : cut b s <> [].
Proof. destruct s as [|c s]; cbn [cut]; [easy|]. destruct (_ && _); [easy|]. destruct (cut _ s); easy. Qed.
Lemma cut_piece p : forall b rest, ~ In 59 p ->
  cut b (p ++ 59 :: rest) =
  if xorb b (Nat.odd (count 34 p)) then glue (p ++ [59]) (cut true rest) else p :: cut false rest.
Proof.
  induction p as [|c p IH]; intros b rest N.
  - cbn [app count filter length Nat.odd cut]. rewrite xorb_false_r, Z.eqb_refl.
    destruct b; cbn [negb andb]; [|reflexivity]. cbn -[cut].
    destruct (cut true rest) eqn:E; [exfalso; exact (cut_nonnil _ _ E) | reflexivity].
  - cbn [app cut]. destruct (Z.eqb_spec c 59); [exfalso; apply N; left; auto|]. cbn [andb].
    rewrite IH by (intro; apply N; right; auto). rewrite odd_count_cons.
    replace (xorb (if c =? 34 then negb b else b) (Nat.odd (count 34 p)))
      with (xorb b (if c =? 34 then negb (Nat.odd (count 34 p)) else Nat.odd (count 34 p)))
      by (destruct (c =? 34), b, (Nat.odd (count 34 p)); reflexivity).
    destruct (xorb b _); [|reflexivity].
    destruct (cut true rest) as [|x l] eqn:E; [exfalso; exact (cut_nonnil _ _ E)|]. reflexivity.
Qed.
Lemma cut_last p b : ~ In 59 p -> cut b p = [p].
Proof.
  revert b. induction p as [|c p IH]; intros b N; [reflexivity|]. cbn [cut].
  destruct (Z.eqb_spec c 59); [exfalso; apply N; left; auto|]. cbn [andb].
  rewrite IH by (intro; apply N; right; auto). reflexivity.
Qed.
Lemma append_last_app l x s : append_last (l ++ [x]) s = Ok (l ++ [x ++ s]).
Proof. induction l as [|y [|z l] IH]; cbn [append_last app] in *; [reflexivity| |]; rewrite IH; reflexivity. Qed.

Lemma split_fold ps : forall acc, ps <> [] -> Forall (fun p => ~ In 59 p) ps ->
  (exists q, foldM split_step (acc, false) ps = Ok (acc ++ cut false (join 59 ps), q)) /\
  (forall x, exists q, foldM split_step (acc ++ [x], true) ps = Ok (acc ++ glue (x ++ [59]) (cut true (join 59 ps)), q)).
Proof.
  induction ps as [|p ps IH]; intros acc N F; [easy|]. inversion F; subst.
  destruct ps as [|p' ps].
  - split.
    + eexists. cbn [foldM split_step bind join]. rewrite cut_last by assumption. reflexivity.
    + intro x. eexists. cbn [foldM split_step bind join]. rewrite append_last_app. cbn [bind].
      rewrite cut_last by assumption. cbn [glue]. rewrite <- app_assoc. reflexivity.
  - split.
    + cbn [foldM split_step bind]. rewrite join_cons, cut_piece by assumption.
      destruct (Nat.odd (count 34 p)); cbn [xorb].
      * destruct (IH acc) as [_ I]; [easy|assumption|]. apply I.
      * destruct (IH (acc ++ [p])) as [I _]; [easy|assumption|]. destruct I as [q I]. exists q. etransitivity; [exact I|]. rewrite <- app_assoc. reflexivity.
    + intro x. cbn [foldM split_step bind]. rewrite append_last_app. cbn [bind].
      rewrite join_cons, cut_piece by assumption.
      destruct (Nat.odd (count 34 p)); cbn [xorb negb].
      * destruct (IH (acc ++ [x ++ 59 :: p])) as [I _]; [easy|assumption|]. destruct I as [q I]. exists q.
        etransitivity; [exact I|]. rewrite <- app_assoc. cbn [glue app]. rewrite <- app_assoc. reflexivity.
      * destruct (IH acc) as [_ I]; [easy|assumption|]. destruct (I (x ++ 59 :: p)) as [q I']. exists q. etransitivity; [exact I'|]. f_equal. f_equal. f_equal.
        destruct (cut true _) as [|y l] eqn:E; [exfalso; exact (cut_nonnil _ _ E)|].
        cbn [glue]. f_equal. rewrite <- !app_assoc. reflexivity.
Qed.
Lemma split_commands_cut data s : clean data = Ok s -> split_commands data = Ok (cut false s).
Proof.
  intro C. unfold split_commands. rewrite C. cbn [bind].
  destruct (split_fold (split_on 59 s) [] (split_on_nonnil _ _) (split_on_clean _ _)) as [[q E] _].
  rewrite E, join_split. reflexivity.
Qed.
Lemma split_commands_total data : (exists l, split_commands data = Ok l) \/ (data = [] /\ split_commands data = Err IndexError).
Proof.
  destruct (clean data) as [s|e] eqn:C.
  - left. eexists. apply split_commands_cut. exact C.
  - right. unfold split_commands. rewrite C. unfold clean in C.
    destruct data as [|c data]; [cbn in C; split; [reflexivity|]; injection C as <-; reflexivity|].
    exfalso. unfold getz in C. change (0 <=? -1) with false in C. cbn iota in C.
    replace (0 <=? -1 + Z.of_nat (length (c :: data))) with true in C by (symmetry; apply Z.leb_le; cbn [length]; lia).
    unfold get in C. destruct (nth_error (c :: data) _) eqn:G; [discriminate|].
    apply nth_error_None in G. cbn [length] in *. lia.
Qed.

Lemma cut_tidy d : forall b rest, tidy b d = true -> cut b (d ++ 59 :: rest) = glue d ([] :: cut false rest).
Proof.
  induction d as [|c d IH]; intros b rest T; cbn [app cut tidy] in *.
  - destruct b; [discriminate|]. reflexivity.
  - destruct (Z.eqb_spec c 34) as [->|].
    + cbn [Z.eqb andb]. rewrite (IH _ _ T). reflexivity.
    + destruct (Z.eqb_spec c 59) as [->|].
      * apply andb_true_iff in T. destruct T as [-> T]. cbn [negb andb]. rewrite (IH _ _ T). reflexivity.
      * cbn [andb]. rewrite (IH _ _ T). reflexivity.
Qed.
Lemma cut_tidy_last d : forall b, tidy b d = true -> cut b d = [d].
Proof.
  induction d as [|c d IH]; intros b T; cbn [app cut tidy] in *; [reflexivity|].
  destruct (Z.eqb_spec c 34) as [->|].
  + cbn [Z.eqb andb]. rewrite (IH _ T). reflexivity.
  + destruct (Z.eqb_spec c 59) as [->|].
    * apply andb_true_iff in T. destruct T as [-> T]. cbn [negb andb]. rewrite (IH _ T). reflexivity.
    * cbn [andb]. rewrite (IH _ T). reflexivity.
Qed.
Lemma cut_join cs : cs <> [] -> Forall (fun d => tidy false d = true) cs -> cut false (join 59 cs) = cs.
Proof.
  induction cs as [|d [|d' cs] IH]; intros N F; [easy| |]; inversion F; subst.
  - apply cut_tidy_last. assumption.
  - rewrite join_cons, (cut_tidy d) by assumption. cbn [glue]. rewrite app_nil_r, IH by (easy || assumption). reflexivity.
Qed.
Lemma tidy_app a : forall b c, ~ In 34 a -> ~ In 59 a -> tidy b (a ++ c) = tidy b c.
Proof.
  induction a as [|x a IH]; intros b c N1 N2; [reflexivity|]. cbn [app tidy].
  destruct (Z.eqb_spec x 34); [exfalso; apply N1; left; auto|].
  destruct (Z.eqb_spec x 59); [exfalso; apply N2; left; auto|].
  apply IH; intro; [apply N1 | apply N2]; right; assumption.
Qed.
Lemma tidy_last d : forall b, tidy b (d ++ [59]) = false.
Proof.
  induction d as [|c d IH]; intro b; cbn [app tidy].
  - destruct b; reflexivity.
  - destruct (c =? 34); [apply IH|]. destruct (c =? 59); rewrite IH; [apply andb_false_r | reflexivity].
Qed.
Lemma lstrip_of_id c x s : x <> c -> lstrip_of c (x :: s) = x :: s.
Proof. intro N. cbn [lstrip_of]. destruct (Z.eqb_spec x c); [contradiction | reflexivity]. Qed.
Lemma strip_of_id c s : (forall s', s <> c :: s') -> (forall s', s <> s' ++ [c]) -> strip_of c s = s.
Proof.
  intros H1 H2. unfold strip_of.
  assert (E : lstrip_of c s = s).
  { destruct s as [|x s]; [reflexivity|]. apply lstrip_of_id. intros ->. eapply H1; reflexivity. }
  rewrite E. destruct (rev s) as [|x r] eqn:R; [rewrite <- (rev_involutive s), R; reflexivity|].
  rewrite lstrip_of_id; [rewrite <- R; apply rev_involutive|].
  intros ->. apply (H2 (rev r)). rewrite <- (rev_involutive s), R. reflexivity.
Qed.
Lemma getz_last {A} (l : list A) x : getz (l ++ [x]) (-1) = Ok x.
Proof.
  unfold getz. change (0 <=? -1) with false. cbn iota. rewrite app_length. cbn [length].
  replace (0 <=? -1 + Z.of_nat (length l + 1)) with true by (symmetry; apply Z.leb_le; lia).
  replace (Z.to_nat (-1 + Z.of_nat (length l + 1))) with (length l) by lia.
  unfold get. rewrite nth_error_app2, Nat.sub_diag by lia. reflexivity.
Qed.
Lemma clean_id s : s <> [] -> (forall s', s <> s' ++ [58]) -> (forall s', s <> 59 :: s') -> (forall s', s <> s' ++ [59]) ->
  clean s = Ok s.
Proof.
  intros N H1 H2 H3. destruct (exists_last N) as [s' [x E]]. unfold clean. rewrite E at 1. rewrite getz_last. cbn [bind].
  destruct (Z.eqb_spec x 58) as [->|]; [exfalso; eapply H1; exact E|]. rewrite strip_of_id by assumption. reflexivity.
Qed.

(** ** Keywords *)
Lemma startswith_spec p : forall s, startswith p s = true <-> exists r, s = p ++ r.
Proof.
  induction p as [|x p IH]; intro s; cbn [startswith].
  - split; [intros _; exists s; reflexivity | reflexivity].
  - destruct s as [|y s]; [split; [discriminate | intros [r E]; discriminate]|].
    rewrite andb_true_iff, Z.eqb_eq, IH. split.
    + intros [-> [r ->]]. exists r. reflexivity.
    + intros [r E]. injection E as -> ->. split; [reflexivity | exists r; reflexivity].
Qed.
Lemma skipn_app_exact {A} (p r : list A) : skipn (length p) (p ++ r) = r.
Proof. induction p; [reflexivity | assumption]. Qed.

(** Denotation of a token list. *)
Inductive denotes : list tok -> pystr -> Prop :=
| d_nil : denotes [] []
| d_lit c ts k : denotes ts k -> denotes (Lit c :: ts) (c :: k)
| d_keep s ts k : denotes ts k -> denotes (Group s :: ts) (s ++ k)
| d_drop s ts k : denotes ts k -> denotes (Group s :: ts) k.
Lemma rmatch_spec ts : forall k, (forall k', k <> k' ++ [10]) -> rmatch ts k = true <-> denotes ts k.
Proof.
  induction ts as [|[c|s] ts IH]; intros k N; cbn [rmatch].
  - destruct k as [|x [|y k]].
    + split; [constructor | reflexivity].
    + split; [|inversion 1]. rewrite Z.eqb_eq. intros ->. exfalso. apply (N []). reflexivity.
    + split; [discriminate | inversion 1].
  - destruct k as [|x k]; [split; [discriminate | inversion 1]|].
    assert (N' : forall k', k <> k' ++ [10]) by (intros k' ->; apply (N (x :: k')); reflexivity).
    rewrite andb_true_iff, Z.eqb_eq, IH by assumption. split.
    + intros [-> D]. constructor. exact D.
    + inversion 1; subst. auto.
  - rewrite orb_true_iff, andb_true_iff, startswith_spec. split.
    + intros [[[r ->] R]|R].
      * rewrite skipn_app_exact in R. apply IH in R; [constructor; exact R|].
        intros k' ->. apply (N (s ++ k')). apply app_assoc.
      * apply IH in R; [apply d_drop; exact R | assumption].
    + inversion 1; subst.
      * left. split; [eexists; reflexivity|]. rewrite skipn_app_exact. apply IH; [|assumption].
        intros k' ->. apply (N (s ++ k')). apply app_assoc.
      * right. apply IH; assumption.
Qed.

Lemma tokens_run_lower run : forall acc kw, all_lower run -> no_lower_head kw -> tokens_run acc (run ++ kw) = tokens_run (acc ++ run) kw.
Proof.
  induction run as [|c run IH]; intros acc kw L N; cbn [app]; [rewrite app_nil_r; reflexivity|].
  inversion L as [|? ? Lc Lr]; subst. cbn [tokens_run]. rewrite Lc, IH by assumption. rewrite <- app_assoc. reflexivity.
Qed.
Lemma tokens_run_flush run kw : run <> [] -> no_lower_head kw -> tokens_run run kw = Group (upper run) :: tokens kw.
Proof.
  intros R N. destruct run as [|r run]; [easy|]. destruct kw as [|c kw]; [reflexivity|].
  cbn [no_lower_head] in N. unfold tokens. cbn [tokens_run]. rewrite N. reflexivity.
Qed.
Lemma lower_span kw : exists run kw', kw = run ++ kw' /\ all_lower run /\ no_lower_head kw'.
Proof.
  induction kw as [|c kw (run & kw' & -> & L & N)]; [exists [], []; repeat split; constructor|].
  destruct (is_lower c) eqn:E.
  - exists (c :: run), kw'. repeat split; [constructor; assumption | assumption].
  - exists [], (c :: run ++ kw'). repeat split; [constructor | exact E].
Qed.
Lemma tokens_spelling kw k : denotes (tokens kw) k <-> spelling kw k.
Proof.
  split.
  - remember (length kw) as n eqn:Hn. revert kw k Hn.
    induction n as [n IH] using lt_wf_ind. intros kw k Hn D.
    destruct (lower_span kw) as (run & kw' & -> & L & N). destruct run as [|r run].
    + cbn [app] in *. destruct kw' as [|c kw']; [inversion D; subst; constructor|].
      cbn [no_lower_head] in N. unfold tokens in D. cbn [tokens_run] in D. rewrite N in D. cbn [app] in D.
      inversion D; subst. constructor; [assumption|]. eapply IH; [|reflexivity|assumption]. cbn [length]. lia.
    + unfold tokens in D. rewrite tokens_run_lower, app_nil_l, tokens_run_flush in D by (assumption || easy).
      assert (G : (length kw' < n)%nat) by (subst n; rewrite app_length; cbn [length]; lia).
      inversion D; subst.
      * apply sp_keep; try assumption; [easy|]. eapply IH; [exact G | reflexivity | assumption].
      * apply sp_drop; try assumption; [easy|]. eapply IH; [exact G | reflexivity | assumption].
  - induction 1 as [|c kw k L S IH|run kw k R L N S IH|run kw k R L N S IH].
    + constructor.
    + unfold tokens. cbn [tokens_run]. rewrite L. cbn [app]. constructor. exact IH.
    + unfold tokens. rewrite tokens_run_lower, app_nil_l, tokens_run_flush by assumption. apply d_keep. exact IH.
    + unfold tokens. rewrite tokens_run_lower, app_nil_l, tokens_run_flush by assumption. apply d_drop. exact IH.
Qed.
Lemma rmatch_spelling kw k : (forall k', k <> k' ++ [10]) -> rmatch (tokens kw) k = true <-> spelling kw k.
Proof. intro N. rewrite rmatch_spec by assumption. apply tokens_spelling. Qed.

Lemma is_word_not c : is_word c = true -> c <> 124 /\ c <> 60.
Proof.
  unfold is_word, is_lower, is_upper, is_digit. intro H. rewrite !orb_true_iff, !andb_true_iff, !Z.leb_le, Z.eqb_eq in H. lia.
Qed.
Lemma span_word_app w r : Forall (fun c => is_word c = true) w -> (match r with c :: _ => is_word c = false | [] => True end) ->
  span_word (w ++ r) = (w, r).
Proof.
  induction 1 as [|c w Hc Hw IH]; intro Hr; cbn [app].
  - destruct r as [|c r]; cbn [span_word]; [reflexivity|]. rewrite Hr. reflexivity.
  - cbn [span_word]. rewrite Hc, IH by assumption. reflexivity.
Qed.
Lemma str_int_nonneg n : 0 <= n -> str_int n = dchars (digits n).
Proof. intro H. unfold str_int. destruct (Z.ltb_spec n 0); [lia | reflexivity]. Qed.
Lemma span_str_int n r : 0 <= n -> no_digit_head r -> exists ds, span_digits (str_int n ++ r) = (ds, r) /\ ds <> [] /\ value10 ds = n.
Proof.
  intros H N. rewrite str_int_nonneg by assumption. destruct (digits_spec n H) as (L & V & NN & _).
  exists (digits n). rewrite span_dchars by assumption. auto.
Qed.
Lemma match_range_numbered w a b : w <> [] -> Forall (fun c => is_word c = true) w -> 0 <= a -> 0 <= b ->
  match_range (w ++ 60 :: str_int a ++ 45 :: str_int b ++ [62]) = Some (w, a, b).
Proof.
  intros Nw Fw Ha Hb. unfold match_range. rewrite span_word_app by (assumption || reflexivity).
  destruct w as [|c w]; [easy|].
  destruct (span_str_int a (45 :: str_int b ++ [62]) Ha) as (da & Ea & Na & Va); [reflexivity|].
  rewrite Ea. destruct da as [|d da]; [easy|].
  destruct (span_str_int b [62] Hb) as (db & Eb & Nb & Vb); [reflexivity|].
  rewrite Eb. destruct db as [|d' db]; [easy|]. rewrite Va, Vb. reflexivity.
Qed.
Lemma match_range_word w : Forall (fun c => is_word c = true) w -> match_range w = None.
Proof.
  intro F. unfold match_range. rewrite <- (app_nil_r w) at 1. rewrite span_word_app by (assumption || exact I).
  destruct w; reflexivity.
Qed.
Lemma dchars_not c ds : digit_list ds -> (c < 48 \/ 57 < c) -> ~ In c (dchars ds).
Proof.
  intros D B I. unfold dchars in I. apply in_map_iff in I. destruct I as [d [E I]].
  unfold digit_list in D. rewrite Forall_forall in D. specialize (D _ I). lia.
Qed.
Lemma str_int_not c n : 0 <= n -> (c < 48 \/ 57 < c) -> ~ In c (str_int n).
Proof. intros H B. rewrite str_int_nonneg by assumption. apply dchars_not; [apply digits_spec; assumption | assumption]. Qed.
Lemma alternative_no_bar a : is_alternative a -> ~ In 124 (print_alternative a).
Proof.
  assert (W : forall w, Forall (fun c => is_word c = true) w -> ~ In 124 w).
  { intros w F I. rewrite Forall_forall in F. apply F in I. apply is_word_not in I. lia. }
  destruct a as [w|w a b]; cbn [is_alternative print_alternative]; [apply W|].
  intros (_ & F & Ha & Hb) I. rewrite !in_app_iff in I. cbn [In] in I. rewrite !in_app_iff in I. cbn [In] in I.
  pose proof (str_int_not 124 a Ha ltac:(lia)). pose proof (str_int_not 124 b Hb ltac:(lia)). pose proof (W _ F).
  intuition (try lia).
  rewrite in_app_iff in *. cbn [In] in *. intuition lia.
Qed.
Lemma expand_print alts : alts <> [] -> Forall is_alternative alts -> expand (print_key alts) = keywords alts.
Proof.
  intros N F. unfold expand, print_key. rewrite split_on_join.
  - unfold keywords. rewrite flat_map_concat_map, map_map, <- flat_map_concat_map. clear N.
    induction F as [|a alts Ha F IH]; [reflexivity|]. cbn [flat_map]. rewrite IH. f_equal.
    destruct a as [w|w a b]; cbn [is_alternative print_alternative] in *.
    + rewrite match_range_word by assumption. reflexivity.
    + destruct Ha as (Hw & Fw & Ha & Hb). rewrite match_range_numbered by assumption. reflexivity.
  - destruct alts; [easy | discriminate].
  - rewrite Forall_map. eapply Forall_impl; [|exact F]. exact alternative_no_bar.
Qed.
Lemma print_key_nil alts : print_key alts = [] -> alts = [] \/ exists w, alts = [Word w].
Proof. intro E. destruct alts as [|[w|w a b] [|c l]]; [left; reflexivity| right; eexists; reflexivity| | |]; exfalso;
  unfold print_key in E; cbn [map join print_alternative] in E; repeat (apply app_eq_nil in E; destruct E as [_ E]); discriminate.
Qed.
Lemma find_first {X} (f : X -> bool) l x : find f l = Some x <-> exists l1 l2, l = l1 ++ x :: l2 /\ f x = true /\ forall y, In y l1 -> f y = false.
Proof.
  induction l as [|y l IH]; cbn [find].
  - split; [discriminate | intros ([|? ?] & l2 & E & _); discriminate].
  - destruct (f y) eqn:Fy.
    + split.
      * intro E. injection E as <-. exists [], l. repeat split; [assumption | easy].
      * intros ([|z l1] & l2 & E & Fx & Fl); injection E as -> ->; [reflexivity|]. rewrite (Fl z (or_introl eq_refl)) in Fy. discriminate.
    + rewrite IH. split.
      * intros (l1 & l2 & -> & Fx & Fl). exists (y :: l1), l2. repeat split; [assumption|]. intros z [->|I]; auto.
      * intros ([|z l1] & l2 & E & Fx & Fl); injection E as -> ->; [congruence|]. exists l1, l2. repeat split; [assumption|]. intros; apply Fl; right; assumption.
Qed.
Lemma match_key_spec alts k kw : alts <> [] -> Forall is_alternative alts -> (forall k', k <> k' ++ [10]) ->
  first_spelled (keywords alts) k kw -> match_key k (print_key alts) = Some (upper kw).
Proof.
  intros N F Nk (l1 & l2 & E & S & R). unfold match_key. rewrite expand_print by assumption.
  replace (find _ (keywords alts)) with (Some kw); [reflexivity|]. symmetry. apply find_first.
  exists l1, l2. split; [exact E|]. split; [apply rmatch_spelling; assumption|].
  intros y I. destruct (rmatch (tokens y) k) eqn:M; [|reflexivity]. apply rmatch_spelling in M; [|assumption]. exfalso. exact (R _ I M).
Qed.
Lemma match_key_none alts k : alts <> [] -> Forall is_alternative alts -> (forall k', k <> k' ++ [10]) ->
  (forall x, In x (keywords alts) -> ~ spelling x k) -> match_key k (print_key alts) = None.
Proof.
  intros N F Nk R. unfold match_key. rewrite expand_print by assumption.
  destruct (find _ _) as [x|] eqn:E; [|reflexivity]. apply find_some in E. destruct E as [I M].
  apply rmatch_spelling in M; [|assumption]. exfalso. exact (R _ I M).
Qed.

Lemma selects_match {V} (l : list (pystr * types V)) k kw t : (forall k', k <> k' ++ [10]) ->
  selects l k kw t -> key_match_in k l = (upper kw, Some t).
Proof.
  intros Nk (l1 & kd & l2 & alts & -> & -> & F & S & R).
  induction l1 as [|[kd' t'] l1 IH]; cbn [app key_match_in].
  - rewrite (match_key_spec alts k kw); [reflexivity| |assumption..]. intros ->. destruct S as ([|? ?] & l3 & E & _); discriminate.
  - destruct (R kd' t' (or_introl eq_refl)) as (alts' & -> & N' & F' & R').
    rewrite match_key_none by assumption. apply IH. intros kd'' t'' I. apply (R kd'' t''). right. exact I.
Qed.
Lemma rejects_match {V} (l : list (pystr * types V)) k : (forall k', k <> k' ++ [10]) ->
  (forall kd t, In (kd, t) l -> rejects kd k) -> key_match_in k l = (k, None).
Proof.
  intros Nk R. induction l as [|[kd' t'] l1 IH]; cbn [key_match_in]; [reflexivity|].
  destruct (R kd' t' (or_introl eq_refl)) as (alts' & -> & N' & F' & R').
  rewrite match_key_none by assumption. apply IH. intros kd'' t'' I. apply (R kd'' t''). right. exact I.
Qed.

(** ** Commands as assignments *)
Section Run.
Context {V : Type}.
Variable raw : pystr -> V.
Notation types := (types V).
Notation tree := (tree V).

(** The loop over the parent keys, without the dictionaries. *)
Fixpoint walk (td : option types) (k : list pystr) : result (list pystr * option types * list pystr) :=
  match k with
  | k0 :: ((_ :: _) as k') =>
      kt <- key_match k0 td ;;
      let '(k0, td) := kt in
      r <- walk td k' ;;
      let '(cs, td', kl) := r in
      Ok (k0 :: cs, td', kl)
  | _ => Ok ([], td, k)
  end.
(** A command, without the dictionaries: new branch, its types, full path and
    value. *)
Definition interp (types0 : option types) (b : list pystr) (td : option types) (d : pystr)
  : result (list pystr * option types * list pystr * V) :=
  kv <- match split1 32 d with Some kv => Ok kv | None => Err ValueError end ;;
  let '(k, v) := kv in
  let k := split_on 58 (upper k) in
  k0 <- get k 0 ;;
  let '(b, td, k) := match k0 with
                     | [] => ([], types0, tl k)
                     | _ => (b, td, k)
                     end in
  r <- walk td k ;;
  let '(cs, td, k) := r in
  k0 <- get k 0 ;;
  kt <- key_match k0 td ;;
  let '(k, tc) := kt in
  v <- match tc with Some (TCall f) => f v | _ => Ok (raw v) end ;;
  Ok (b ++ cs, td, (b ++ cs) ++ [k], v).

Definition pstr (b : list pystr) : pystr := 58 :: flat_map (fun c => c ++ [58]) b.
Lemma pstr_app b c : pstr (b ++ c) = pstr b ++ flat_map (fun c => c ++ [58]) c.
Proof. unfold pstr. rewrite flat_map_app. reflexivity. Qed.
Lemma pstr_join b k : pstr b ++ k = 58 :: join 58 (b ++ [k]).
Proof.
  unfold pstr. cbn [app]. f_equal. induction b as [|x b IH]; [reflexivity|]. cbn [flat_map app].
  rewrite <- !app_assoc. cbn [app]. rewrite IH. destruct (b ++ [k]) eqn:E; [destruct b; discriminate | reflexivity].
Qed.

(** Flat. *)
Lemma descend_flat k : forall st,
  descend true st k = (r <- walk (s_types st) k ;; let '(cs, td, kl) := r in
    Ok (State (s_flat st) (s_nested st) (s_path st) (s_parent st ++ flat_map (fun c => c ++ [58]) cs) td, kl)).
Proof.
  induction k as [|k0 k IH]; intro st.
  - cbn [descend walk bind flat_map]. rewrite app_nil_r. destruct st; reflexivity.
  - destruct k as [|k1 k].
    + cbn [descend walk bind flat_map]. rewrite app_nil_r. destruct st; reflexivity.
    + change (descend true st (k0 :: k1 :: k)) with
        (kt <- key_match k0 (s_types st) ;; let '(k0, td) := kt in
         nested <- Ok (s_nested st) ;;
         descend true (State (s_flat st) nested (s_path st) (s_parent st ++ k0 ++ [58]) td) (k1 :: k)).
      change (walk (s_types st) (k0 :: k1 :: k)) with
        (kt <- key_match k0 (s_types st) ;; let '(k0, td) := kt in
         r <- walk td (k1 :: k) ;; let '(cs, td', kl) := r in Ok (k0 :: cs, td', kl)).
      destruct (key_match k0 (s_types st)) as [[c td]|e]; [|reflexivity].
      cbn [bind]. rewrite IH. cbn [s_types s_flat s_nested s_path s_parent].
      destruct (walk td (k1 :: k)) as [[[cs td'] kl]|e]; [|reflexivity]. cbn [bind flat_map].
      rewrite <- !app_assoc. reflexivity.
Qed.
Definition flat_state (asg : list (path * V)) : list (pystr * V) :=
  fold_left (fun d r => dset d (58 :: join 58 (fst r)) (snd r)) asg [].
Lemma step_flat types0 asg b td n0 p0 d :
  match interp types0 b td d with
  | Ok (b', td', p, v) => exists p1,
      step raw true types0 (State (flat_state asg) n0 p0 (pstr b) td) d =
      Ok (State (flat_state (asg ++ [(p, v)])) n0 p1 (pstr b') td')
  | Err e => step raw true types0 (State (flat_state asg) n0 p0 (pstr b) td) d = Err e
  end.
Proof.
  unfold step, interp. destruct (split1 32 d) as [[k v]|]; [|reflexivity]. cbn [bind].
  destruct (get (split_on 58 (upper k)) 0) as [k0|e] eqn:G; [|reflexivity]. cbn [bind].
  assert (X : forall b td k1 p0,
    match (r <- walk td k1 ;;
           let '(cs, td, k) := r in
           k0 <- get k 0 ;;
           kt <- key_match k0 td ;;
           let '(k, tc) := kt in
           v <- match tc with Some (TCall f) => f v | _ => Ok (raw v) end ;;
           Ok (b ++ cs, td, (b ++ cs) ++ [k], v)) with
    | Ok (b', td', p, v') => exists p1,
     (sk <- descend true (State (flat_state asg) n0 p0 (pstr b) td) k1 ;;
     let '(st, k) := sk in
     k0 <- get k 0 ;;
     kt <- key_match k0 (s_types st) ;;
     let '(k, tc) := kt in
     v <- match tc with Some (TCall f) => f v | _ => Ok (raw v) end ;;
     Ok (State (dset (s_flat st) (s_parent st ++ k) v) (s_nested st) (s_path st) (s_parent st) (s_types st))) =
      Ok (State (flat_state (asg ++ [(p, v')])) n0 p1 (pstr b') td')
    | Err e => (sk <- descend true (State (flat_state asg) n0 p0 (pstr b) td) k1 ;;
     let '(st, k) := sk in
     k0 <- get k 0 ;;
     kt <- key_match k0 (s_types st) ;;
     let '(k, tc) := kt in
     v <- match tc with Some (TCall f) => f v | _ => Ok (raw v) end ;;
     Ok (State (dset (s_flat st) (s_parent st ++ k) v) (s_nested st) (s_path st) (s_parent st) (s_types st))) = Err e
    end).
  { clear. intros b td k1 p0. rewrite descend_flat. cbn [s_types s_flat s_nested s_path s_parent].
    destruct (walk td k1) as [[[cs td'] kl]|e]; [|reflexivity]. cbn [bind].
    cbn [s_types s_flat s_nested s_path s_parent].
    destruct (get kl 0) as [kn|e]; [|reflexivity]. cbn [bind].
    destruct (key_match kn td') as [[c tc]|e]; [|reflexivity]. cbn [bind].
    destruct (match tc with Some (TCall f) => f v | _ => Ok (raw v) end) as [v'|e]; [|reflexivity]. cbn [bind].
    exists p0. unfold flat_state. rewrite fold_left_app. cbn [fold_left fst snd].
    rewrite <- pstr_join, <- pstr_app. reflexivity. }
  destruct k0 as [|x k0]; [apply (X [] types0 (tl (split_on 58 (upper k))) [])|apply (X b td (split_on 58 (upper k)) p0)].
Qed.

(** Nested. *)
Definition sub (l : list (pystr * tree)) (k : pystr) : list (pystr * tree) :=
  match tfind l k with Some (Node l') => l' | _ => [] end.
Fixpoint tmk (p : path) (l : list (pystr * tree)) : list (pystr * tree) :=
  match p with
  | [] => l
  | k :: p' => tset l k (Node (tmk p' (sub l k)))
  end.
Fixpoint tassign (p : path) (v : V) (l : list (pystr * tree)) : list (pystr * tree) :=
  match p with
  | [] => l
  | [k] => tset l k (Leaf v)
  | k :: p' => tset l k (Node (tassign p' v (sub l k)))
  end.
Lemma tfind_tset_same l k (t : tree) : tfind (tset l k t) k = Some t.
Proof.
  induction l as [|[k' t'] l IH]; cbn [tset tfind].
  - rewrite str_eqb_refl. reflexivity.
  - destruct (str_eqb k' k) eqn:E; cbn [tfind]; rewrite E; [reflexivity | exact IH].
Qed.
Lemma tfind_tset_other l k k2 (t : tree) : k <> k2 -> tfind (tset l k t) k2 = tfind l k2.
Proof.
  intro N. induction l as [|[k' t'] l IH]; cbn [tset tfind].
  - rewrite str_eqb_neq by assumption. reflexivity.
  - destruct (str_eqb k' k) eqn:E; cbn [tfind].
    + apply str_eqb_eq in E. subst. rewrite str_eqb_neq by assumption. reflexivity.
    + rewrite IH. reflexivity.
Qed.
Lemma tset_tset l k (t t' : tree) : tset (tset l k t) k t' = tset l k t'.
Proof.
  induction l as [|[k2 t2] l IH]; cbn [tset].
  - rewrite str_eqb_refl. reflexivity.
  - destruct (str_eqb k2 k) eqn:E; cbn [tset]; rewrite E; [reflexivity | rewrite IH; reflexivity].
Qed.
Lemma tset_found l k (t : tree) : tfind l k = Some t -> tset l k t = l.
Proof.
  induction l as [|[k2 t2] l IH]; cbn [tset tfind]; [discriminate|].
  destruct (str_eqb k2 k) eqn:E; intro F; [injection F as ->; reflexivity | rewrite IH by assumption; reflexivity].
Qed.
Lemma sub_tset l k l' : sub (tset l k (Node l')) k = l'.
Proof. unfold sub. rewrite tfind_tset_same. reflexivity. Qed.
Lemma at_path_tmk p f : forall l, at_path p f (tmk p l) = Ok ((fix go p l := match p with [] => f l | k :: p' => tset l k (Node (go p' (sub l k))) end) p l).
Proof.
  induction p as [|k p IH]; intro l; [reflexivity|]. cbn [at_path tmk]. rewrite tfind_tset_same, IH. cbn [bind].
  rewrite tset_tset. reflexivity.
Qed.
Lemma enter_tmk k l : enter k l = tmk [k] l.
Proof.
  unfold enter. cbn [tmk]. unfold sub. destruct (tfind l k) as [[v|l']|] eqn:F; try reflexivity.
  symmetry. apply tset_found. exact F.
Qed.
Lemma at_enter p k l : at_path p (enter k) (tmk p l) = Ok (tmk (p ++ [k]) l).
Proof.
  rewrite at_path_tmk. f_equal. revert l. induction p as [|c p IH]; intro l; [apply enter_tmk|].
  cbn [app tmk]. rewrite IH. reflexivity.
Qed.
Lemma tassign_cons k k' p v l : tassign (k :: k' :: p) v l = tset l k (Node (tassign (k' :: p) v (sub l k))).
Proof. reflexivity. Qed.
Lemma at_set p k v l : at_path p (fun l => tset l k (Leaf v)) (tmk p l) = Ok (tassign (p ++ [k]) v l).
Proof.
  rewrite at_path_tmk. f_equal. revert l. induction p as [|c p IH]; intro l; [reflexivity|].
  cbn [app]. rewrite IH. destruct (p ++ [k]) eqn:E; [destruct p; discriminate|]. rewrite tassign_cons. reflexivity.
Qed.
Lemma tmk_tmk p q : forall l, tmk (p ++ q) (tmk p l) = tmk (p ++ q) l.
Proof. induction p as [|k p IH]; intro l; [reflexivity|]. cbn [app tmk]. rewrite sub_tset, IH, tset_tset. reflexivity. Qed.
Lemma tmk_assign p k v : forall l, tmk p (tassign (p ++ [k]) v l) = tassign (p ++ [k]) v l.
Proof.
  induction p as [|c p IH]; intro l; [reflexivity|].
  cbn [app]. destruct (p ++ [k]) eqn:E; [destruct p; discriminate|]. rewrite tassign_cons. cbn [tmk].
  rewrite sub_tset, tset_tset, IH. reflexivity.
Qed.
Definition nested_state (asg : list (path * V)) : list (pystr * tree) :=
  fold_left (fun l r => tassign (fst r) (snd r) l) asg [].

Lemma descend_nested k : forall f l b parent td,
  descend false (State f (tmk b l) b parent td) k = (r <- walk td k ;; let '(cs, td, kl) := r in
    Ok (State f (tmk (b ++ cs) l) (b ++ cs) (parent ++ flat_map (fun c => c ++ [58]) cs) td, kl)).
Proof.
  induction k as [|k0 k IH]; intros f l b parent td.
  - cbn [descend walk bind flat_map]. rewrite !app_nil_r. reflexivity.
  - destruct k as [|k1 k].
    + cbn [descend walk bind flat_map]. rewrite !app_nil_r. reflexivity.
    + change (descend false (State f (tmk b l) b parent td) (k0 :: k1 :: k)) with
        (kt <- key_match k0 td ;; let '(k0, td) := kt in
         nested <- at_path b (enter k0) (tmk b l) ;;
         descend false (State f nested (b ++ [k0]) (parent ++ k0 ++ [58]) td) (k1 :: k)).
      change (walk td (k0 :: k1 :: k)) with
        (kt <- key_match k0 td ;; let '(k0, td) := kt in
         r <- walk td (k1 :: k) ;; let '(cs, td', kl) := r in Ok (k0 :: cs, td', kl)).
      destruct (key_match k0 td) as [[c td']|e]; [|reflexivity].
      cbn [bind]. rewrite at_enter. cbn [bind]. rewrite IH.
      destruct (walk td' (k1 :: k)) as [[[cs td''] kl]|e]; [|reflexivity]. cbn [bind flat_map].
      rewrite <- !app_assoc. reflexivity.
Qed.
Lemma step_nested types0 asg b td f0 d : tmk b (nested_state asg) = nested_state asg ->
  step raw false types0 (State f0 (nested_state asg) b (pstr b) td) d =
  (r <- interp types0 b td d ;; let '(b', td', p, v) := r in
   Ok (State f0 (nested_state (asg ++ [(p, v)])) b' (pstr b') td')).
Proof.
  intro T. rewrite <- T at 1. unfold step, interp. destruct (split1 32 d) as [[k v]|]; [|reflexivity]. cbn [bind].
  destruct (get (split_on 58 (upper k)) 0) as [k0|e] eqn:G; [|reflexivity]. cbn [bind].
  destruct (split_on 58 (upper k)) as [|kk ks] eqn:S; [discriminate|]. cbn in G. injection G as ->.
  assert (X : forall b td k1, tmk b (nested_state asg) = nested_state asg ->
    (sk <- descend false (State f0 (tmk b (nested_state asg)) b (pstr b) td) k1 ;;
     let '(st, k) := sk in
     k0 <- get k 0 ;;
     kt <- key_match k0 (s_types st) ;;
     let '(k, tc) := kt in
     v <- match tc with Some (TCall f) => f v | _ => Ok (raw v) end ;;
     nested <- at_path (s_path st) (fun l => tset l k (Leaf v)) (s_nested st) ;;
     Ok (State (s_flat st) nested (s_path st) (s_parent st) (s_types st))) =
    (r <- (r <- walk td k1 ;;
           let '(cs, td, k) := r in
           k0 <- get k 0 ;;
           kt <- key_match k0 td ;;
           let '(k, tc) := kt in
           v <- match tc with Some (TCall f) => f v | _ => Ok (raw v) end ;;
           Ok (b ++ cs, td, (b ++ cs) ++ [k], v)) ;; let '(b', td', p, v) := r in
     Ok (State f0 (nested_state (asg ++ [(p, v)])) b' (pstr b') td'))).
  { clear. intros b td k1 T. rewrite descend_nested.
    destruct (walk td k1) as [[[cs td'] kl]|e]; [|reflexivity]. cbn [bind]. cbn [s_types s_flat s_nested s_path s_parent].
    destruct (get kl 0) as [kn|e]; [|reflexivity]. cbn [bind].
    destruct (key_match kn td') as [[c tc]|e]; [|reflexivity]. cbn [bind].
    destruct (match tc with Some (TCall f) => f v | _ => Ok (raw v) end) as [v'|e]; [|reflexivity]. cbn [bind].
    rewrite at_set. cbn [bind]. unfold nested_state at 2. rewrite fold_left_app. cbn [fold_left fst snd].
    rewrite <- pstr_app. reflexivity. }
  destruct k0 as [|x k0].
  - cbn [s_types s_flat s_nested s_path s_parent tl]. rewrite T. apply (X [] types0 ks). reflexivity.
  - apply (X b td ((x :: k0) :: ks) T).
Qed.
Lemma interp_valid types0 asg b td d b' td' p v : interp types0 b td d = Ok (b', td', p, v) ->
  tmk b' (nested_state (asg ++ [(p, v)])) = nested_state (asg ++ [(p, v)]).
Proof.
  intro E. assert (P : exists k, p = b' ++ [k]).
  { unfold interp in E. destruct (split1 32 d) as [[k v0]|]; [|discriminate]. cbn [bind] in E.
    destruct (get _ 0) as [k0|e]; [|discriminate]. cbn [bind] in E.
    destruct (match k0 with [] => _ | _ => _ end) as [[b0 td0] k1].
    destruct (walk td0 k1) as [[[cs td''] kl]|e]; [|discriminate]. cbn [bind] in E.
    destruct (get kl 0) as [kn|e]; [|discriminate]. cbn [bind] in E.
    destruct (key_match kn td'') as [[c tc]|e]; [|discriminate]. cbn [bind] in E.
    destruct (match tc with Some (TCall f) => f v0 | _ => Ok (raw v0) end) as [v'|e]; [|discriminate]. cbn [bind] in E.
    injection E as <- <- <- <-. eexists. reflexivity. }
  destruct P as [k ->]. unfold nested_state. rewrite fold_left_app. cbn [fold_left fst snd]. apply tmk_assign.
Qed.

(** All commands. *)
Definition cmd_step (types0 : option types) (st : list (path * V) * (list pystr * option types)) (d : pystr)
  : result (list (path * V) * (list pystr * option types)) :=
  r <- interp types0 (fst (snd st)) (snd (snd st)) d ;; let '(b', td', p, v) := r in
  Ok (fst st ++ [(p, v)], (b', td')).
Lemma run_flat types0 cmds : forall asg b td n0 p0,
  match foldM (cmd_step types0) (asg, (b, td)) cmds with
  | Ok (asg', _) => exists st, foldM (step raw true types0) (State (flat_state asg) n0 p0 (pstr b) td) cmds = Ok st /\ s_flat st = flat_state asg'
  | Err e => foldM (step raw true types0) (State (flat_state asg) n0 p0 (pstr b) td) cmds = Err e
  end.
Proof.
  induction cmds as [|d cmds IH]; intros asg b td n0 p0; cbn [foldM].
  - eexists. split; reflexivity.
  - pose proof (step_flat types0 asg b td n0 p0 d) as S. unfold cmd_step at 1. cbn [fst snd].
    destruct (interp types0 b td d) as [[[[b' td'] p] v]|e]; cbn [bind].
    + destruct S as [p1 ->]. cbn [bind]. apply IH.
    + rewrite S. reflexivity.
Qed.
Lemma run_nested types0 cmds : forall asg b td f0, tmk b (nested_state asg) = nested_state asg ->
  match foldM (cmd_step types0) (asg, (b, td)) cmds with
  | Ok (asg', _) => exists st, foldM (step raw false types0) (State f0 (nested_state asg) b (pstr b) td) cmds = Ok st /\ s_nested st = nested_state asg'
  | Err e => foldM (step raw false types0) (State f0 (nested_state asg) b (pstr b) td) cmds = Err e
  end.
Proof.
  induction cmds as [|d cmds IH]; intros asg b td f0 T; cbn [foldM].
  - eexists. split; reflexivity.
  - rewrite step_nested by assumption. unfold cmd_step at 1. cbn [fst snd].
    destruct (interp types0 b td d) as [[[[b' td'] p] v]|e] eqn:E; cbn [bind]; [|reflexivity]. apply IH.
    eapply interp_valid. exact E.
Qed.

(** The assignments of a text. *)
Definition assignments (types0 : option types) (data : pystr) : result (list (path * V)) :=
  l <- split_commands data ;;
  r <- foldM (cmd_step types0) ([], ([], types0)) l ;; Ok (fst r).
Lemma parse_flat_eq types0 data :
  parse_scpi_flat raw types0 data = (asg <- assignments types0 data ;; Ok (flat_state asg)).
Proof.
  unfold parse_scpi_flat, run, assignments. destruct (split_commands data) as [l|e]; [|reflexivity]. cbn [bind].
  pose proof (run_flat types0 l [] [] types0 [] []) as R.
  destruct (foldM (cmd_step types0) _ l) as [[asg st']|e]; cbn [bind fst].
  - destruct R as [st [E F]]. unfold init. change [58] with (pstr []). change (@nil (pystr * V)) with (flat_state []) at 1. rewrite E. cbn [bind]. rewrite F. reflexivity.
  - unfold init. change [58] with (pstr []). change (@nil (pystr * V)) with (flat_state []) at 1. rewrite R. reflexivity.
Qed.
Lemma parse_nested_eq types0 data :
  parse_scpi_nested raw types0 data = (asg <- assignments types0 data ;; Ok (nested_state asg)).
Proof.
  unfold parse_scpi_nested, run, assignments. destruct (split_commands data) as [l|e]; [|reflexivity]. cbn [bind].
  pose proof (run_nested types0 l [] [] types0 [] eq_refl) as R.
  destruct (foldM (cmd_step types0) _ l) as [[asg st']|e]; cbn [bind fst].
  - destruct R as [st [E F]]. unfold init. change [58] with (pstr []). change (@nil (pystr * tree)) with (nested_state []) at 1. rewrite E. cbn [bind]. rewrite F. reflexivity.
  - unfold init. change [58] with (pstr []). change (@nil (pystr * tree)) with (nested_state []) at 1. rewrite R. reflexivity.
Qed.

(** ** What the dictionaries hold *)
Lemma dget_dset_same d k (v : V) : dget (dset d k v) k = Some v.
Proof.
  unfold dget. induction d as [|[k' v'] d IH]; cbn [dset find fst].
  - rewrite str_eqb_refl. reflexivity.
  - destruct (str_eqb k' k) eqn:E; cbn [find fst]; rewrite E; [reflexivity | exact IH].
Qed.
Lemma dget_dset_other d k k2 (v : V) : k <> k2 -> dget (dset d k v) k2 = dget d k2.
Proof.
  intro N. unfold dget. induction d as [|[k' v'] d IH]; cbn [dset find fst].
  - rewrite str_eqb_neq by assumption. reflexivity.
  - destruct (str_eqb k' k) eqn:E; cbn [find fst].
    + apply str_eqb_eq in E. subst. rewrite str_eqb_neq by assumption. reflexivity.
    + destruct (str_eqb k' k2); [reflexivity | exact IH].
Qed.
Lemma dset_keys d k (v : V) : NoDup (map fst d) -> NoDup (map fst (dset d k v)) /\ (forall x, In x (map fst (dset d k v)) <-> x = k \/ In x (map fst d)).
Proof.
  induction d as [|[k' v'] d IH]; intro N; cbn [dset map fst].
  - split; [repeat constructor; easy|]. intro x. cbn [In]. intuition.
  - inversion N as [|? ? Ni Nd]; subst. destruct (IH Nd) as [IN II]. destruct (str_eqb k' k) eqn:E; cbn [map fst].
    + apply str_eqb_eq in E. subst. split; [exact N|]. intro x. cbn [In]. intuition.
    + split.
      * constructor; [|exact IN]. rewrite II. intros [->|I]; [rewrite str_eqb_refl in E; discriminate | contradiction].
      * intro x. cbn [In]. rewrite II. intuition.
Qed.
Lemma flat_nodup asg : NoDup (map fst (flat_state asg)).
Proof.
  induction asg as [|[p v] asg IH] using rev_ind; [constructor|].
  unfold flat_state. rewrite fold_left_app. cbn [fold_left fst snd]. apply dset_keys. exact IH.
Qed.
Lemma last_value_snoc {K} (l : list (K * V)) k v k2 v2 : (forall a b : K, {a = b} + {a <> b}) ->
  last_value (l ++ [(k, v)]) k2 v2 <-> (k = k2 /\ v = v2) \/ (k <> k2 /\ last_value l k2 v2).
Proof.
  intro dec. split.
  - intros (l1 & l2 & E & N). destruct l2 as [|x l2] using rev_ind.
    + apply app_inj_tail in E. destruct E as [_ E]. injection E as -> ->. left. auto.
    + clear IHl2. rewrite app_comm_cons, app_assoc in E. apply app_inj_tail in E. destruct E as [E Ex]. right. split.
      * intros ->. apply (N v). rewrite <- Ex. apply in_app_iff. right. left. reflexivity.
      * exists l1, l2. split; [exact E|]. intros v' I. apply (N v'). apply in_app_iff. left. exact I.
  - intros [[-> ->]|[N (l1 & l2 & -> & M)]].
    + exists l, []. split; [reflexivity | easy].
    + exists l1, (l2 ++ [(k, v)]). split; [rewrite <- app_assoc; reflexivity|].
      intros v' I. apply in_app_iff in I. destruct I as [I|[E|[]]]; [exact (M _ I)|]. injection E. intros; contradiction.
Qed.
Lemma flat_get asg k v : dget (flat_state asg) k = Some v <->
  last_value (map (fun r => (58 :: join 58 (fst r), snd r)) asg) k v.
Proof.
  induction asg as [|[p w] asg IH] using rev_ind.
  - split; [discriminate | intros ([|? ?] & ? & E & _); discriminate].
  - rewrite map_app. cbn [map fst snd]. rewrite last_value_snoc by exact pystr_dec.
    unfold flat_state. rewrite fold_left_app. cbn [fold_left fst snd]. fold (flat_state asg).
    destruct (pystr_dec (58 :: join 58 p) k) as [<-|N].
    + rewrite dget_dset_same. split; [intro E; injection E as ->; left; auto | intros [[_ ->]|[C _]]; [reflexivity | contradiction]].
    + rewrite dget_dset_other by assumption. rewrite IH. split; [right; auto | intros [[C _]|[_ L]]; [contradiction | exact L]].
Qed.

Lemma tget_cons k k' p (l : list (pystr * tree)) : tget l (k :: k' :: p) = match tfind l k with Some (Node l') => tget l' (k' :: p) | _ => None end.
Proof. reflexivity. Qed.
Lemma tget_nil p : tget (@nil (pystr * tree)) p = None.
Proof. destruct p as [|k [|k' p]]; reflexivity. Qed.
Lemma tget_tassign p v : forall l q, p <> [] ->
  (q = p -> tget (tassign p v l) q = Some v) /\
  (q <> p -> prefix_of p q \/ prefix_of q p -> tget (tassign p v l) q = None) /\
  (~ prefix_of p q -> ~ prefix_of q p -> tget (tassign p v l) q = tget l q).
Proof.
  induction p as [|k p IH]; intros l q N; [easy|]. destruct p as [|k' p].
  - cbn [tassign]. repeat split.
    + intros ->. cbn [tget]. rewrite tfind_tset_same. reflexivity.
    + intros Nq [[r ->]|[r E]].
      * destruct r as [|x r]; [rewrite app_nil_r in Nq; contradiction|]. cbn [app]. rewrite tget_cons, tfind_tset_same. reflexivity.
      * destruct q as [|x [|y q]]; [reflexivity| |discriminate].
        injection E as -> E. contradiction.
    + intros N1 N2. destruct q as [|x [|y q]]; [reflexivity| |].
      * destruct (pystr_dec k x) as [->|Nx]; [exfalso; apply N1; exists []; reflexivity|]. cbn [tget]. rewrite tfind_tset_other by assumption. reflexivity.
      * destruct (pystr_dec k x) as [->|Nx]; [exfalso; apply N1; exists (y :: q); reflexivity|]. rewrite !tget_cons, tfind_tset_other by assumption. reflexivity.
  - rewrite tassign_cons. assert (Np : k' :: p <> []) by discriminate. repeat split.
    + intros ->. rewrite tget_cons, tfind_tset_same. apply (IH (sub l k) (k' :: p) Np). reflexivity.
    + intros Nq P. destruct q as [|x [|y q]].
      * reflexivity.
      * destruct P as [[r E]|[r E]]; [discriminate|]. injection E as -> _. cbn [tget]. rewrite tfind_tset_same. reflexivity.
      * assert (Ek : x = k) by (destruct P as [[r E]|[r E]]; injection E; auto). subst x.
        rewrite tget_cons, tfind_tset_same. apply (IH (sub l k) (y :: q) Np).
        -- congruence.
        -- destruct P as [[r E]|[r E]]; injection E as E1 E2; [left | right]; exists r; cbn [app]; congruence.
    + intros N1 N2. destruct q as [|x [|y q]].
      * reflexivity.
      * destruct (pystr_dec k x) as [->|Nx]; [exfalso; apply N2; exists (k' :: p); reflexivity|]. cbn [tget]. rewrite tfind_tset_other by assumption. reflexivity.
      * rewrite !tget_cons. destruct (pystr_dec k x) as [->|Nx]; [|rewrite tfind_tset_other by assumption; reflexivity].
        rewrite tfind_tset_same. destruct (IH (sub l x) (y :: q) Np) as (_ & _ & G). rewrite G.
        -- unfold sub. destruct (tfind l x) as [[w|l']|]; try reflexivity; apply tget_nil.
        -- intros [r E]. apply N1. exists r. cbn [app]. f_equal. exact E.
        -- intros [r E]. apply N2. exists r. cbn [app]. f_equal. exact E.
Qed.
Lemma prefix_dec p q : {prefix_of p q} + {~ prefix_of p q}.
Proof.
  revert q. induction p as [|k p IH]; intro q; [left; exists q; reflexivity|].
  destruct q as [|x q]; [right; intros [r E]; discriminate|].
  destruct (pystr_dec k x) as [->|N]; [|right; intros [r E]; injection E; intros; congruence].
  destruct (IH q) as [P|P]; [left | right].
  - destruct P as [r ->]. exists r. reflexivity.
  - intros [r E]. apply P. exists r. injection E; auto.
Qed.
Lemma nested_snoc asg q w : nested_state (asg ++ [(q, w)]) = tassign q w (nested_state asg).
Proof. unfold nested_state. rewrite fold_left_app. reflexivity. Qed.
Lemma nested_get asg p v : Forall (fun r => fst r <> []) asg ->
  tget (nested_state asg) p = Some v <-> survives asg p v.
Proof.
  induction asg as [|[q w] asg IH] using rev_ind; intro F.
  - split; [unfold nested_state; cbn [fold_left]; rewrite tget_nil; discriminate | intros ([|? ?] & ? & E & _); discriminate].
  - apply Forall_app in F. destruct F as [F Fq]. apply Forall_inv in Fq. cbn [fst] in Fq. specialize (IH F).
    rewrite nested_snoc.
    destruct (tget_tassign q w (nested_state asg) p Fq) as (G1 & G2 & G3).
    destruct (path_dec p q) as [E|N].
    + rewrite (G1 E). subst q. split.
      * intro X. injection X as <-. exists asg, []. split; [reflexivity | easy].
      * intros (l1 & l2 & E & C). destruct l2 as [|x l2] using rev_ind.
        -- apply app_inj_tail in E. destruct E as [_ E]. injection E as ->. reflexivity.
        -- rewrite app_comm_cons, app_assoc in E. apply app_inj_tail in E. destruct E as [_ <-].
           exfalso. apply (C p w); [apply in_app_iff; right; left; reflexivity | exists []; symmetry; apply app_nil_r].
    + assert (D : (prefix_of q p \/ prefix_of p q) \/ (~ prefix_of q p /\ ~ prefix_of p q)).
      { destruct (prefix_dec q p); [tauto|]. destruct (prefix_dec p q); tauto. }
      destruct D as [D|[D1 D2]].
      * rewrite (G2 N D). split; [discriminate|]. intros (l1 & l2 & E & C). exfalso. destruct l2 as [|x l2] using rev_ind.
        -- apply app_inj_tail in E. destruct E as [_ E]. injection E; intros; congruence.
        -- rewrite app_comm_cons, app_assoc in E. apply app_inj_tail in E. destruct E as [_ <-].
           destruct (C q w) as [C1 C2]; [apply in_app_iff; right; left; reflexivity | tauto].
      * rewrite (G3 D1 D2), IH. split.
        -- intros (l1 & l2 & -> & C). exists l1, (l2 ++ [(q, w)]). split; [rewrite <- app_assoc; reflexivity|].
           intros q' w' I. apply in_app_iff in I. destruct I as [I|[E|[]]]; [exact (C _ _ I)|]. injection E as <- <-. tauto.
        -- intros (l1 & l2 & E & C). destruct l2 as [|x l2] using rev_ind.
           ++ apply app_inj_tail in E. destruct E as [_ E]. injection E; intros; congruence.
           ++ rewrite app_comm_cons, app_assoc in E. apply app_inj_tail in E. destruct E as [E _].
              exists l1, l2. split; [exact E|]. intros q' w' I. apply (C q' w'). apply in_app_iff. left. exact I.
Qed.

(** ** Printed replies *)
Lemma name_upper_10 k : name k -> forall k', upper k <> k' ++ [10].
Proof.
  intros (_ & _ & _ & _ & _ & N) k' E. apply N. apply upper_in; [lia|]. rewrite E. apply in_app_iff. right. left. reflexivity.
Qed.
Lemma key_match_resolves (t : option types) k p cp t' : name k -> resolves t (k :: p) cp t' ->
  exists c t1 cp', key_match (upper k) t = Ok (c, t1) /\ resolves t1 p cp' t' /\ cp = c :: cp' /\
    forall p2 cp2 t2, resolves t1 p2 cp2 t2 -> resolves t (k :: p2) (c :: cp2) t2.
Proof.
  intros N R. inversion R; subst; cbn [key_match].
  - eexists _, _, _. repeat split; [eassumption|]. intros. constructor. assumption.
  - rewrite upper_idem. rewrite (selects_match _ _ kw t0); [|apply name_upper_10; assumption | assumption].
    eexists _, _, _. repeat split; [eassumption|]. intros. econstructor; eassumption.
  - rewrite upper_idem, rejects_match; [|apply name_upper_10; assumption | assumption].
    eexists _, _, _. repeat split; [eassumption|]. intros. apply res_unknown; assumption.
Qed.
Lemma resolves_fun p : forall (t : option types) cp1 t1 cp2 t2, Forall name p -> resolves t p cp1 t1 -> resolves t p cp2 t2 -> cp1 = cp2 /\ t1 = t2.
Proof.
  induction p as [|k p IH]; intros t cp1 t1 cp2 t2 F R1 R2.
  - inversion R1; inversion R2; subst; auto.
  - inversion F as [|? ? Nk Np]; subst.
    destruct (key_match_resolves _ _ _ _ _ Nk R1) as (c & ta & ca & E1 & Ra & -> & _).
    destruct (key_match_resolves _ _ _ _ _ Nk R2) as (c' & tb & cb & E2 & Rb & -> & _).
    rewrite E1 in E2. injection E2 as -> ->. destruct (IH _ _ _ _ _ Np Ra Rb) as [-> ->]. auto.
Qed.
Lemma resolves_upper p : forall q (t : option types) cp t', map upper p = map upper q -> resolves t p cp t' -> resolves t q cp t'.
Proof.
  induction p as [|k p IH]; intros [|k2 q] t cp t' E R; try discriminate; [exact R|].
  cbn [map] in E. assert (Ek : upper k = upper k2) by congruence. assert (Ep : map upper p = map upper q) by congruence.
  inversion R; subst; rewrite ?Ek.
  - constructor. eapply IH; eassumption.
  - econstructor; [rewrite <- Ek; eassumption | eapply IH; eassumption].
  - apply res_unknown; [rewrite <- Ek; assumption | eapply IH; eassumption].
Qed.
Lemma resolves_app p q : forall (t : option types) cp t', resolves t (p ++ q) cp t' ->
  exists cp1 t1 cp2, resolves t p cp1 t1 /\ resolves t1 q cp2 t' /\ cp = cp1 ++ cp2.
Proof.
  induction p as [|k p IH]; intros t cp t' R.
  - exists [], t, cp. repeat split; [constructor | exact R].
  - cbn [app] in R. inversion R; subst.
    + match goal with X : resolves _ (p ++ q) _ _ |- _ => destruct (IH _ _ _ X) as (c1 & t1 & c2 & A & B & ->) end. exists (upper k :: c1), t1, c2. repeat split; [|exact B]. constructor. exact A.
    + match goal with X : resolves _ (p ++ q) _ _ |- _ => destruct (IH _ _ _ X) as (c1 & t1 & c2 & A & B & ->) end. exists (upper kw :: c1), t1, c2. repeat split; [|exact B]. econstructor; eassumption.
    + match goal with X : resolves _ (p ++ q) _ _ |- _ => destruct (IH _ _ _ X) as (c1 & t1 & c2 & A & B & ->) end. exists (upper k :: c1), t1, c2. repeat split; [|exact B]. apply res_unknown; assumption.
Qed.
Lemma resolves_app_inv p q : forall (t : option types) cp1 t1 cp2 t', resolves t p cp1 t1 -> resolves t1 q cp2 t' -> resolves t (p ++ q) (cp1 ++ cp2) t'.
Proof.
  induction p as [|k p IH]; intros t cp1 t1 cp2 t' R1 R2; inversion R1; subst; cbn [app]; [exact R2|..].
  - constructor. eapply IH; eassumption.
  - econstructor; [eassumption | eapply IH; eassumption].
  - apply res_unknown; [assumption | eapply IH; eassumption].
Qed.
Lemma resolves_length p : forall (t : option types) cp t', resolves t p cp t' -> length cp = length p.
Proof. intros t cp t' R. induction R; cbn [length]; congruence. Qed.
Lemma walk_resolves p k : forall (t : option types) cp t', Forall name p -> name k -> resolves t (p ++ [k]) cp t' ->
  exists cs t1 c, walk t (map upper (p ++ [k])) = Ok (cs, t1, [upper k]) /\ resolves t p cs t1 /\
    key_match (upper k) t1 = Ok (c, t') /\ cp = cs ++ [c].
Proof.
  induction p as [|x p IH]; intros t cp t' F N R.
  - cbn [app map walk]. destruct (key_match_resolves _ _ _ _ _ N R) as (c & t1 & cp' & E & R' & -> & _).
    inversion R'; subst. exists [], t, c. repeat split; [constructor | exact E].
  - inversion F as [|? ? Nx Np]; subst. cbn [app] in R.
    destruct (key_match_resolves _ _ _ _ _ Nx R) as (c & t1 & cp' & E & R' & -> & B).
    destruct (IH _ _ _ Np N R') as (cs & t2 & c2 & W & R2 & K & ->).
    exists (c :: cs), t2, c2. repeat split.
    + cbn [app map]. destruct (map upper (p ++ [k])) as [|y ys] eqn:M; [destruct p; discriminate|].
      change (walk t (upper x :: y :: ys)) with
        (kt <- key_match (upper x) t ;; let '(k0, td) := kt in
         r <- walk td (y :: ys) ;; let '(cs, td', kl) := r in Ok (k0 :: cs, td', kl)).
      rewrite E. cbn [bind]. rewrite W. reflexivity.
    + apply B. exact R2.
    + exact K.
Qed.
Lemma join_not c l : Forall name l -> c <> 58 -> (forall k, name k -> ~ In c k) -> ~ In c (join 58 l).
Proof.
  intros F Nc H. induction F as [|x l Nx F IH]; [easy|]. destruct l as [|y l].
  - exact (H x Nx).
  - rewrite join_cons. intro I. apply in_app_iff in I. destruct I as [I|[I|I]]; [exact (H x Nx I) | congruence | exact (IH I)].
Qed.
Lemma split_names l : l <> [] -> Forall name l -> split_on 58 (upper (join 58 l)) = map upper l.
Proof.
  intros N F. rewrite upper_join. apply split_on_join; [destruct l; [contradiction | discriminate]|].
  apply Forall_map. eapply Forall_impl; [|exact F]. intros k (_ & C & _) I. apply C. apply (proj1 (upper_in 58 k ltac:(lia)) I).
Qed.
Lemma interp_header types0 branch b td p h v cp w :
  resolves types0 branch b td -> Forall name branch -> header branch p h -> p <> [] -> Forall name p ->
  stored raw types0 (p, v) (cp, w) ->
  exists td', interp types0 b td (h ++ 32 :: v) = Ok (removelast cp, td', cp, w) /\ resolves types0 (removelast p) (removelast cp) td'.
Proof.
  intros Rb Fb H Np Fp (t & R & C). cbn [fst snd] in R, C.
  assert (N32 : forall l, Forall name l -> ~ In 32 (join 58 l)).
  { intros l Fl. apply join_not; [exact Fl | discriminate | intros k (_ & _ & X & _); exact X]. }
  assert (V' : (match t with Some (TCall f) => f v | _ => Ok (raw v) end) = Ok w).
  { unfold converts in C. destruct t as [[?|f|]|]; subst; try reflexivity. exact C. }
  inversion H as [p' | parent rest Eu Nr]; subst.
  - destruct p as [|k p _] using rev_ind; [contradiction|].
    apply Forall_app in Fp as Fp'. destruct Fp' as [Fp' Fk]. apply Forall_inv in Fk.
    destruct (walk_resolves _ _ _ _ _ Fp' Fk R) as (cs & t1 & c & W & R1 & K & ->).
    exists t1. rewrite !removelast_last. split; [|exact R1].
    unfold interp. rewrite split1_app; [|intros [I|I]; [discriminate | exact (N32 _ Fp I)]]. cbn [bind].
    change (upper (58 :: join 58 (p ++ [k]))) with (58 :: upper (join 58 (p ++ [k]))).
    change (split_on 58 (58 :: upper (join 58 (p ++ [k])))) with ([] :: split_on 58 (upper (join 58 (p ++ [k])))).
    rewrite split_names by assumption. cbn [get bind tl].
    change (get ([] :: map upper (p ++ [k])) 0) with (@Ok pystr []). cbn [bind tl]. rewrite W. cbn [bind].
    change (get [upper k] 0) with (Ok (upper k)). cbn [bind]. rewrite K. cbn [bind]. rewrite V'. reflexivity.
  - apply Forall_app in Fp as Fpp. destruct Fpp as [Fpa Fr].
    destruct (resolves_app _ _ _ _ _ R) as (cp1 & t1 & cp2 & A & B & ->).
    destruct (resolves_fun parent types0 b td cp1 t1 Fpa) as [<- <-]; [|exact A|].
    { eapply resolves_upper; [|exact Rb]. symmetry. exact Eu. }
    destruct rest as [|k r _] using rev_ind; [contradiction|].
    apply Forall_app in Fr as Fr'. destruct Fr' as [Fr' Fk]. apply Forall_inv in Fk.
    destruct (walk_resolves _ _ _ _ _ Fr' Fk B) as (cs & t1 & c & W & R1 & K & ->).
    exists t1. rewrite !app_assoc, !removelast_last. split; [|eapply resolves_app_inv; eassumption].
    unfold interp. rewrite split1_app by (apply N32; assumption). cbn [bind].
    rewrite split_names by assumption.
    assert (G : exists x k0, get (map upper (r ++ [k])) 0 = Ok (x :: k0)).
    { destruct r as [|y r]; cbn [app map].
      - destruct k as [|x k]; [destruct Fk as [X _]; contradiction|]. eexists _, _. reflexivity.
      - inversion Fr' as [|? ? Ny _]; subst. destruct y as [|x y]; [destruct Ny as [X _]; contradiction|]. eexists _, _. reflexivity. }
    destruct G as (x & k0 & G). rewrite G. cbn [bind].
    rewrite W. cbn [bind]. change (get [upper k] 0) with (Ok (upper k)). cbn [bind]. rewrite K. cbn [bind]. rewrite V'. reflexivity.
Qed.
Lemma interp_reply types0 branch l cs : reply branch l cs -> forall rs asg b td,
  resolves types0 branch b td -> Forall name branch -> Forall well_formed l -> Forall2 (stored raw types0) l rs ->
  exists st, foldM (cmd_step types0) (asg, (b, td)) cs = Ok (asg ++ rs, st).
Proof.
  induction 1 as [branch | branch p v h l cs H Rp IH]; intros rs asg b td Rb Fb W S.
  - inversion S; subst. exists (b, td). rewrite app_nil_r. reflexivity.
  - inversion S as [|? [cp w] ? rs' S1 S2]; subst. inversion W as [|? ? (W1 & W2 & W3) W']; subst. cbn [fst snd] in W1, W2, W3.
    destruct (interp_header _ _ _ _ _ _ _ _ _ Rb Fb H W1 W2 S1) as (td' & I & R').
    cbn [foldM]. unfold cmd_step at 1. cbn [fst snd]. rewrite I. cbn [bind].
    assert (Fr : Forall name (removelast p)).
    { destruct p as [|k p _] using rev_ind; [constructor|]. rewrite removelast_last. apply Forall_app in W2. tauto. }
    destruct (IH rs' (asg ++ [(cp, w)]) _ _ R' Fr W' S2) as (st & E). exists st. etransitivity; [exact E|]. rewrite <- app_assoc. reflexivity.
Qed.
Lemma reply_commands branch l cs : reply branch l cs -> Forall well_formed l ->
  Forall (fun d => tidy false d = true) cs /\ length cs = length l.
Proof.
  induction 1 as [branch | branch p v h l cs H Rp IH]; intro W; [split; [constructor | reflexivity]|].
  inversion W as [|? ? (W1 & W2 & W3) W']; subst. cbn [fst snd] in W1, W2, W3.
  destruct (IH W') as [A B]. split; [constructor; [|exact A] | cbn [length]; congruence].
  assert (X : ~ In 34 h /\ ~ In 59 h).
  { assert (Y : forall l, Forall name l -> ~ In 34 (join 58 l) /\ ~ In 59 (join 58 l)).
    { intros l' Fl. split; apply join_not; try exact Fl; try discriminate; intros k (? & ? & ? & ? & ? & ?); assumption. }
    inversion H; subst.
    - destruct (Y p W2) as [Y1 Y2]. split; intros [I|I]; try discriminate; contradiction.
    - apply Forall_app in W2. apply Y. tauto. }
  rewrite tidy_app by tauto. cbn [tidy]. exact W3.
Qed.
Lemma join_snoc c l d : l <> [] -> join c (l ++ [d]) = join c l ++ c :: d.
Proof.
  induction l as [|x l IH]; intro N; [easy|]. destruct l as [|y l]; [reflexivity|].
  cbn [app]. rewrite !join_cons. change (y :: l ++ [d]) with ((y :: l) ++ [d]). rewrite IH by discriminate. rewrite <- app_assoc. reflexivity.
Qed.
Lemma join_ends c l d : exists a, join c (l ++ [d]) = a ++ d.
Proof.
  destruct l as [|x l]; [exists []; reflexivity|]. exists (join c (x :: l) ++ [c]).
  rewrite join_snoc by discriminate. rewrite <- app_assoc. reflexivity.
Qed.
(** The reply text survives cleaning. *)
Lemma reply_clean branch l cs : reply branch l cs -> Forall well_formed l -> l <> [] ->
  (forall d v', last l d = (fst (last l d), v' ++ [58]) -> False) -> clean (join 59 cs) = Ok (join 59 cs).
Proof.
  intros Rp W N L. destruct (reply_commands _ _ _ Rp W) as [T Len].
  assert (Nc : cs <> []) by (destruct cs, l; try discriminate; contradiction).
  assert (Nj : forall d, In d cs -> exists x d', d = x :: d' /\ x <> 59).
  { clear - Rp W. induction Rp as [branch | branch p v h l cs H Rp IH]; intros d I; [destruct I|].
    inversion W as [|? ? (W1 & W2 & W3) W']; subst. cbn [fst snd] in W1, W2, W3.
    destruct I as [<-|I]; [|exact (IH W' d I)].
    inversion H; subst; [eexists _, _; split; [reflexivity | discriminate]|].
    apply Forall_app in W2. destruct W2 as [_ W2]. destruct rest as [|r rest]; [contradiction|].
    apply Forall_inv in W2. destruct W2 as (Nr & _ & _ & N59 & _). destruct r as [|x r]; [contradiction|].
    exists x. destruct rest as [|y rest]; [eexists; split; [reflexivity|]|].
    - intros ->. apply N59. left. reflexivity.
    - rewrite join_cons. eexists. split; [reflexivity|]. intros ->. apply N59. left. reflexivity. }
  assert (LT : forall b l cs, reply b l cs -> l <> [] -> exists cs' h v, cs = cs' ++ [h ++ 32 :: v] /\ forall d, snd (last l d) = v).
  { clear. intros b l cs R. induction R as [branch | branch p v h l cs H Rp IH]; intro N; [contradiction|].
    destruct l as [|s l].
    - inversion Rp; subst. exists [], h, v. split; reflexivity.
    - destruct IH as (cs' & h' & v' & -> & Lv); [discriminate|]. exists ((h ++ 32 :: v) :: cs'), h', v'. split; [reflexivity|].
      intro d. rewrite <- (Lv d). reflexivity. }
  destruct (LT _ _ _ Rp N) as (cs' & h & v & E & Lv).
  destruct (join_ends 59 cs' (h ++ 32 :: v)) as [a Ea].
  assert (Ea' : join 59 cs = a ++ (h ++ 32 :: v)) by (rewrite E; exact Ea).
  apply clean_id.
  - destruct cs as [|d cs]; [contradiction|]. destruct (Nj d (or_introl eq_refl)) as (x & d' & -> & _). destruct cs; discriminate.
  - intros s' X. rewrite Ea' in X. destruct v as [|z v _] using rev_ind.
    + rewrite app_assoc in X. apply app_inj_tail in X. destruct X as [_ X]. discriminate.
    + assert (a ++ h ++ 32 :: v ++ [z] = (a ++ h ++ 32 :: v) ++ [z]) as Y by (rewrite <- !app_assoc; reflexivity).
      rewrite Y in X. apply app_inj_tail in X. destruct X as [_ ->].
      destruct l as [|s0 l]; [contradiction|]. apply (L s0 v). rewrite <- (Lv s0). apply surjective_pairing.
  - intros s' X. destruct cs as [|d cs]; [contradiction|]. destruct (Nj d (or_introl eq_refl)) as (x & d' & -> & Nx).
    destruct cs; cbn in X; injection X; intros; congruence.
  - intros s' X. rewrite Ea' in X. rewrite E in T. apply Forall_app in T. destruct T as [_ T]. apply Forall_inv in T.
    destruct v as [|z v _] using rev_ind.
    + rewrite app_assoc in X. apply app_inj_tail in X. destruct X as [_ X]. discriminate.
    + assert (a ++ h ++ 32 :: v ++ [z] = (a ++ h ++ 32 :: v) ++ [z]) as Y by (rewrite <- !app_assoc; reflexivity).
      rewrite Y in X. apply app_inj_tail in X. destruct X as [_ ->].
      assert (h ++ 32 :: v ++ [59] = (h ++ 32 :: v) ++ [59]) as Z by (rewrite <- !app_assoc; reflexivity).
      rewrite Z, tidy_last in T. discriminate.
Qed.
Lemma assignments_reply types0 l cs rs : reply [] l cs -> Forall well_formed l -> l <> [] ->
  (forall d v', last l d = (fst (last l d), v' ++ [58]) -> False) -> Forall2 (stored raw types0) l rs ->
  assignments types0 (join 59 cs) = Ok rs.
Proof.
  intros Rp W N L S. destruct (reply_commands _ _ _ Rp W) as [T Len].
  unfold assignments. rewrite (split_commands_cut _ _ (reply_clean _ _ _ Rp W N L)). cbn [bind].
  rewrite cut_join; [|destruct cs, l; try discriminate; contradiction | exact T].
  destruct (interp_reply types0 [] l cs Rp rs [] [] types0) as (st & E); [constructor | constructor | exact W | exact S|].
  exact (f_equal (fun x => bind x (fun r => Ok (fst r))) E).
Qed.
Lemma interp_path_nonnil types0 b td d b' td' p v : interp types0 b td d = Ok (b', td', p, v) -> p <> [].
Proof.
  intro E. pose proof (interp_valid types0 [] b td d b' td' p v E) as _.
  unfold interp in E. destruct (split1 32 d) as [[k v0]|]; [|discriminate]. cbn [bind] in E.
  destruct (get _ 0) as [k0|e]; [|discriminate]. cbn [bind] in E.
  destruct (match k0 with [] => _ | _ => _ end) as [[b0 td0] k1].
  destruct (walk td0 k1) as [[[cs td''] kl]|e]; [|discriminate]. cbn [bind] in E.
  destruct (get kl 0) as [kn|e]; [|discriminate]. cbn [bind] in E.
  destruct (key_match kn td'') as [[c tc]|e]; [|discriminate]. cbn [bind] in E.
  destruct (match tc with Some (TCall f) => f v0 | _ => Ok (raw v0) end) as [v'|e]; [|discriminate]. cbn [bind] in E.
  injection E as <- <- <- <-. intro X. destruct (b0 ++ cs); discriminate.
Qed.
Lemma assignments_nonnil types0 data asg : assignments types0 data = Ok asg -> Forall (fun r => fst r <> []) asg.
Proof.
  unfold assignments. destruct (split_commands data) as [l|]; [|discriminate]. cbn [bind]. intro E.
  destruct (foldM (cmd_step types0) ([], ([], types0)) l) as [[asg' st]|] eqn:F; [|discriminate]. cbn [bind fst] in E. injection E as ->.
  assert (G : forall l a st asg st', Forall (fun r : path * V => fst r <> []) a -> foldM (cmd_step types0) (a, st) l = Ok (asg, st') -> Forall (fun r => fst r <> []) asg).
  { clear. induction l as [|d l IH]; intros a st asg st' Fa E; cbn [foldM] in E; [injection E as <- <-; exact Fa|].
    unfold cmd_step at 1 in E. cbn [fst snd] in E. destruct (interp types0 (fst st) (snd st) d) as [[[[b' td'] p] v]|e] eqn:I; [|discriminate]. cbn [bind] in E.
    eapply IH; [|exact E]. apply Forall_app. split; [exact Fa|]. constructor; [|constructor]. eapply interp_path_nonnil. exact I. }
  eapply G; [constructor | exact F].
Qed.
End Run.

(** ** Consequences *)
Lemma survives_last {V} (l : list (path * V)) p v :
  (forall a b, In a l -> In b l -> prefix_of (fst a) (fst b) -> fst a = fst b) ->
  survives l p v <-> last_value l p v.
Proof.
  intro C. split; intros (l1 & l2 & -> & H); exists l1, l2; (split; [reflexivity|]).
  - intros v' I. apply (H p v' I). exists []. symmetry. apply app_nil_r.
  - intros q w I.
    assert (Ip : In (p, v) (l1 ++ (p, v) :: l2)) by (apply in_app_iff; right; left; reflexivity).
    assert (Iq : In (q, w) (l1 ++ (p, v) :: l2)) by (apply in_app_iff; right; right; exact I).
    split; intro P.
    + pose proof (C _ _ Iq Ip P) as E. cbn [fst] in E. subst. exact (H _ I).
    + pose proof (C _ _ Ip Iq P) as E. cbn [fst] in E. subst. exact (H _ I).
Qed.
Lemma last_value_map {K K' V} (f : K -> K') (l : list (K * V)) k v :
  (forall r, In r l -> f (fst r) = f k -> fst r = k) ->
  last_value l k v <-> last_value (map (fun r => (f (fst r), snd r)) l) (f k) v.
Proof.
  intro J. split.
  - intros (l1 & l2 & -> & H). exists (map (fun r => (f (fst r), snd r)) l1), (map (fun r => (f (fst r), snd r)) l2).
    rewrite map_app. split; [reflexivity|]. intros v' I. apply in_map_iff in I. destruct I as [[k' w] [E I]].
    cbn [fst snd] in E. injection E as E ->. apply (J (k', v')) in E.
    + cbn [fst] in E. subst. exact (H _ I).
    + apply in_app_iff. right. right. exact I.
  - intros (m1 & m2 & E & H). apply map_eq_app in E. destruct E as (l1 & l2 & -> & E1 & E2).
    apply map_eq_cons in E2. destruct E2 as ([k' w] & l2' & -> & E2 & E3). cbn [fst snd] in E2. injection E2 as E2 ->.
    apply (J (k', v)) in E2; [|apply in_app_iff; right; left; reflexivity]. cbn [fst] in E2. subst k'.
    exists l1, l2'. split; [reflexivity|]. intros v' I. apply (H v'). rewrite <- E3.
    change (f k, v') with ((fun r : K * V => (f (fst r), snd r)) (k, v')). apply in_map. exact I.
Qed.
Lemma word_no_colon w : Forall (fun c => is_word c = true) w -> ~ In 58 w.
Proof. intros F I. eapply Forall_forall in F; [|exact I]. discriminate. Qed.
Lemma keyword_no_colon alts kw : Forall is_alternative alts -> In kw (keywords alts) -> ~ In 58 kw.
Proof.
  intros F I. apply in_flat_map in I. destruct I as (a & Ia & I). eapply Forall_forall in F; [|exact Ia].
  destruct a as [w|w a b].
  - destruct I as [<-|[]]. exact (word_no_colon w F).
  - destruct F as (_ & Fw & A & B). apply in_map_iff in I. destruct I as (i & <- & I). intro C. apply in_app_iff in C.
    destruct C as [C|C]; [exact (word_no_colon w Fw C)|].
    unfold zrange in I. apply in_map_iff in I. destruct I as (j & <- & _). apply (str_int_not 58 (a + Z.of_nat j)) in C; [exact C | lia | lia].
Qed.
Lemma upper_no_colon s : ~ In 58 s -> ~ In 58 (upper s).
Proof. intros N I. apply N. apply (proj1 (upper_in 58 s ltac:(lia)) I). Qed.
Lemma resolves_no_colon {V} p (t : option (types V)) cp t' : resolves t p cp t' -> Forall name p -> Forall (fun c => ~ In 58 c) cp.
Proof.
  induction 1 as [t | k p cp t R IH | l k kw t0 p cp t S R IH | l k p cp t N R IH]; intro F; [constructor|..];
    inversion F as [|? ? (_ & Nk & _) Fp]; subst; (constructor; [|exact (IH Fp)]); apply upper_no_colon; try exact Nk.
  destruct S as (l1 & kd & l2 & alts & _ & _ & Fa & (k1 & k2 & E & _) & _).
  apply (keyword_no_colon alts); [exact Fa|]. rewrite E. apply in_app_iff. right. left. reflexivity.
Qed.
Lemma join_inj p q : p <> [] -> q <> [] -> Forall (fun c => ~ In 58 c) p -> Forall (fun c => ~ In 58 c) q -> join 58 p = join 58 q -> p = q.
Proof.
  intros Np Nq Fp Fq E. rewrite <- (split_on_join 58 p), <- (split_on_join 58 q) by assumption. rewrite E. reflexivity.
Qed.

(** Spellings. *)
Lemma spelling_long kw : Forall (fun c => is_word c = true) kw -> spelling kw (upper kw).
Proof.
  intro F. remember (length kw) as n eqn:En. assert (Le : (length kw <= n)%nat) by lia. clear En. revert kw F Le.
  induction n as [|n IH]; intros kw F Le; [destruct kw; [constructor | cbn in Le; lia]|].
  destruct (lower_span kw) as (run & kw' & E & L & H). destruct run as [|c run].
  - cbn [app] in E. subst kw'. destruct kw as [|c kw]; [constructor|]. cbn [no_lower_head] in H.
    inversion F as [|? ? Fc Fk]; subst. cbn [upper map].
    assert (upper_char c = c) as Ec.
    { unfold upper_char. unfold is_lower in H. rewrite H. reflexivity. }
    rewrite Ec. constructor; [exact H|]. apply IH; [exact Fk | cbn in Le; lia].
  - rewrite E, upper_app. apply sp_keep; [discriminate | exact L | exact H|]. apply IH.
    + rewrite E in F. apply Forall_app in F. tauto.
    + rewrite E, app_length in Le. cbn [length] in Le. lia.
Qed.
Lemma spelling_short kw : spelling kw (filter (fun c => negb (is_lower c)) kw).
Proof.
  remember (length kw) as n eqn:En. assert (Le : (length kw <= n)%nat) by lia. clear En. revert kw Le.
  induction n as [|n IH]; intros kw Le; [destruct kw; [constructor | cbn in Le; lia]|].
  destruct (lower_span kw) as (run & kw' & E & L & H). destruct run as [|c run].
  - cbn [app] in E. subst kw'. destruct kw as [|c kw]; [constructor|]. cbn [no_lower_head] in H.
    cbn [filter]. rewrite H. cbn [negb]. constructor; [exact H|]. apply IH. cbn in Le; lia.
  - assert (Ef : filter (fun c => negb (is_lower c)) ((c :: run) ++ kw') = filter (fun c => negb (is_lower c)) kw').
    { clear - L. induction L as [|x r Lx L IH]; [reflexivity|]. cbn [app filter]. rewrite Lx. exact IH. }
    rewrite E. assert (Q : spelling ((c :: run) ++ kw') (filter (fun c => negb (is_lower c)) kw')); [|rewrite <- Ef in Q; exact Q]. apply sp_drop; [discriminate | exact L | exact H|]. apply IH.
    rewrite E, app_length in Le. cbn [length] in Le. lia.
Qed.
Lemma spelling_caps_only w k : Forall (fun c => is_lower c = false) w -> spelling w k -> k = w.
Proof.
  intros F S. induction S as [|c kw k Hc S IH|run kw k Nr L H S IH|run kw k Nr L H S IH].
  - reflexivity.
  - inversion F; subst. f_equal. auto.
  - exfalso. destruct run as [|c run]; [contradiction|]. inversion F; inversion L; subst. congruence.
  - exfalso. destruct run as [|c run]; [contradiction|]. inversion F; inversion L; subst. congruence.
Qed.
Lemma spelling_nil k : spelling [] k -> k = [].
Proof. intro S. apply (spelling_caps_only []); [constructor | exact S]. Qed.
Lemma spelling_caps_run caps run k : Forall (fun c => is_lower c = false) caps -> run <> [] -> all_lower run ->
  spelling (caps ++ run) k <-> k = caps \/ k = caps ++ upper run.
Proof.
  intros F N L. split.
  - revert k. induction F as [|c caps Hc F IH]; intros k S; cbn [app] in S.
    + inversion S as [|c kw k' Hc S' |run' kw k' Nr L' H S' E|run' kw k' Nr L' H S' E]; subst.
      * contradiction.
      * exfalso. inversion L; subst. congruence.
      * assert (kw = []) as ->.
        { destruct kw as [|c kw]; [reflexivity|]. exfalso. apply Forall_app in L. destruct L as [_ L]. inversion L; subst. cbn [no_lower_head] in H. congruence. }
        apply spelling_nil in S'. subst. right. rewrite !app_nil_r. reflexivity.
      * assert (kw = []) as ->.
        { destruct kw as [|c kw]; [reflexivity|]. exfalso. apply Forall_app in L. destruct L as [_ L]. inversion L; subst. cbn [no_lower_head] in H. congruence. }
        apply spelling_nil in S'. subst. left. reflexivity.
    + inversion S as [|c' kw k' Hc' S' |run' kw k' Nr L' H S' E|run' kw k' Nr L' H S' E]; subst.
      * destruct (IH _ S') as [->| ->]; [left | right]; reflexivity.
      * exfalso. destruct run' as [|x r]; [contradiction|]. injection E as -> _. inversion L'; subst. congruence.
      * exfalso. destruct run' as [|x r]; [contradiction|]. injection E as -> _. inversion L'; subst. congruence.
  - assert (G : forall k', spelling run k' -> spelling (caps ++ run) (caps ++ k')).
    { intros k' S. induction F as [|c caps Hc F IH]; [exact S|]. cbn [app]. constructor; assumption. }
    intros [->| ->].
    + rewrite <- (app_nil_r caps) at 2. apply G. rewrite <- (app_nil_r run). apply sp_drop; try assumption; constructor.
    + apply G. rewrite <- (app_nil_r run), <- (app_nil_r (upper (run ++ []))). rewrite app_nil_r at 2. apply sp_keep; try assumption; constructor.
Qed.
Lemma zrange_in a b i : In i (zrange a b) <-> a <= i <= b.
Proof.
  unfold zrange. rewrite in_map_iff. split.
  - intros (j & <- & I). apply in_seq in I. lia.
  - intro H. exists (Z.to_nat (i - a)). split; [lia|]. apply in_seq. lia.
Qed.

(** Decisions used for concrete replies. *)
Lemma no_newline k : last k 0 <> 10 -> forall k', k <> k' ++ [10].
Proof. intros N k' ->. rewrite last_last in N. contradiction. Qed.
Lemma spelled kw k : last k 0 <> 10 -> rmatch (tokens kw) k = true -> spelling kw k.
Proof. intros N R. apply rmatch_spelling; [apply no_newline; exact N | exact R]. Qed.
Lemma not_spelled kw k : last k 0 <> 10 -> rmatch (tokens kw) k = false -> ~ spelling kw k.
Proof. intros N R S. apply rmatch_spelling in S; [congruence | apply no_newline; exact N]. Qed.

(** Cleaning. *)
Lemma lstrip_of_spec c s : exists k, s = repeat c k ++ lstrip_of c s /\ forall s', lstrip_of c s <> c :: s'.
Proof.
  induction s as [|x s IH]; [exists O; split; [reflexivity | discriminate]|]. cbn [lstrip_of].
  destruct (Z.eqb_spec x c) as [->|N].
  - destruct IH as (k & E & H). exists (S k). split; [cbn [repeat app]; f_equal; exact E | exact H].
  - exists O. split; [reflexivity|]. intros s' E. injection E. intros. congruence.
Qed.
Lemma rev_repeat_Z (c : Z) k : rev (repeat c k) = repeat c k.
Proof.
  induction k as [|k IH]; [reflexivity|]. cbn [repeat rev]. rewrite IH. symmetry. apply (repeat_cons k c).
Qed.
Lemma strip_of_spec c s : exists k m, s = repeat c k ++ strip_of c s ++ repeat c m /\
  (forall s', strip_of c s <> c :: s') /\ (forall s', strip_of c s <> s' ++ [c]).
Proof.
  destruct (lstrip_of_spec c s) as (k & E & H). destruct (lstrip_of_spec c (rev (lstrip_of c s))) as (m & E2 & H2).
  exists k, m. assert (E3 : lstrip_of c s = strip_of c s ++ repeat c m).
  { rewrite <- (rev_involutive (lstrip_of c s)), E2, rev_app_distr, rev_repeat_Z. reflexivity. }
  repeat split.
  - rewrite <- E3. exact E.
  - intros s' X. apply (H (s' ++ repeat c m)). rewrite E3, X. reflexivity.
  - intros s' X. apply (H2 (rev s')). rewrite <- (rev_involutive (lstrip_of c (rev (lstrip_of c s)))). fold (strip_of c s). rewrite X, rev_app_distr. reflexivity.
Qed.
Lemma clean_spec data : data <> [] -> exists s k m, clean data = Ok s /\
  (data = repeat 59 k ++ s ++ repeat 59 m \/ data = (repeat 59 k ++ s ++ repeat 59 m) ++ [58]) /\
  (forall s', s <> 59 :: s') /\ (forall s', s <> s' ++ [59]).
Proof.
  intro N. destruct (exists_last N) as [d [x ->]]. unfold clean. rewrite getz_last. cbn [bind].
  destruct (Z.eqb_spec x 58) as [->|Nx].
  - rewrite removelast_last. destruct (strip_of_spec 59 d) as (k & m & E & A & B). exists (strip_of 59 d), k, m.
    repeat split; try assumption. right. f_equal. exact E.
  - destruct (strip_of_spec 59 (d ++ [x])) as (k & m & E & A & B). exists (strip_of 59 (d ++ [x])), k, m.
    repeat split; try assumption. left. exact E.
Qed.
Lemma clean_join cs d0 dn : Forall (fun d => tidy false d = true) cs -> (exists l, cs = d0 :: l) -> (exists l, cs = l ++ [dn]) ->
  d0 <> [] -> dn <> [] -> (forall d, dn <> d ++ [58]) -> clean (join 59 cs) = Ok (join 59 cs).
Proof.
  intros T [l0 E0] [ln En] N0 Nn C. destruct (join_ends 59 ln dn) as [a Ea]. rewrite <- En in Ea.
  destruct (exists_last Nn) as [dn' [z Ez]].
  assert (Tn : tidy false dn = true) by (rewrite En in T; apply Forall_app in T; destruct T as [_ T]; apply Forall_inv in T; exact T).
  assert (T0 : tidy false d0 = true) by (rewrite E0 in T; apply Forall_inv in T; exact T).
  apply clean_id.
  - rewrite Ea, Ez. intro X. destruct a; [destruct dn'; discriminate | discriminate].
  - intros s' X. rewrite Ea, Ez, app_assoc in X. apply app_inj_tail in X. destruct X as [_ ->]. exact (C _ Ez).
  - intros s' X. destruct d0 as [|x d0]; [contradiction|]. assert (x = 59) as ->.
    { rewrite E0 in X. destruct l0; cbn in X; injection X; auto. }
    discriminate.
  - intros s' X. rewrite Ea, Ez, app_assoc in X. apply app_inj_tail in X. destruct X as [_ ->]. rewrite Ez, tidy_last in Tn. discriminate.
Qed.
Lemma last_text_last l : l <> [] -> last_text_ok l -> forall d v', last l d = (fst (last l d), v' ++ [58]) -> False.
Proof.
  intros N H d v' E. destruct (exists_last N) as [l' [s ->]]. rewrite last_last in E.
  apply (H l' s eq_refl v'). rewrite E. reflexivity.
Qed.

(** Acceptance without types. *)
Lemma walk_untyped {V} k : k <> [] -> exists cs x, walk (@None (types V)) k = Ok (cs, None, [x]).
Proof.
  induction k as [|k0 k IH]; intro N; [contradiction|]. destruct k as [|k1 k]; [exists [], k0; reflexivity|].
  destruct IH as (cs & x & E); [discriminate|]. exists (k0 :: cs), x.
  change (walk (@None (types V)) (k0 :: k1 :: k)) with
        (r <- walk (@None (types V)) (k1 :: k) ;; let '(cs, td', kl) := r in Ok (k0 :: cs, td', kl)).
  rewrite E. reflexivity.
Qed.
Lemma split1_none c s : split1 c s = None <-> ~ In c s.
Proof.
  induction s as [|x s IH]; cbn [split1]; [split; [easy | reflexivity]|].
  destruct (Z.eqb_spec x c) as [->|N]; [split; [discriminate | intro H; exfalso; apply H; left; reflexivity]|].
  destruct (split1 c s) as [[a b]|]; split; intro H; try discriminate.
  - exfalso. assert (X : Some (a, b) = None) by (apply IH; intro I; apply H; right; exact I). discriminate.
  - intros [I|I]; [contradiction | exact (proj1 IH eq_refl I)].
  - reflexivity.
Qed.
Lemma split1_some c s h v : split1 c s = Some (h, v) -> s = h ++ c :: v /\ ~ In c h.
Proof.
  revert h v. induction s as [|x s IH]; intros h v E; cbn [split1] in E; [discriminate|].
  destruct (Z.eqb_spec x c) as [->|N]; [injection E as <- <-; split; [reflexivity | easy]|].
  destruct (split1 c s) as [[a b]|]; [|discriminate]. injection E as <- <-. destruct (IH a b eq_refl) as [-> Na].
  split; [reflexivity|]. intros [I|I]; [contradiction | exact (Na I)].
Qed.
Lemma interp_untyped {V} (raw : pystr -> V) b d :
  (command_ok d -> exists b' p v, interp raw None b None d = Ok (b', None, p, v)) /\
  (~ In 32 d -> interp raw None b None d = Err ValueError) /\
  (forall v, d = 32 :: v -> interp raw None b None d = Err IndexError).
Proof.
  repeat split.
  - intros (h & v & -> & N & Nh). unfold interp. rewrite split1_app by assumption. cbn [bind].
    destruct (split_on 58 (upper h)) as [|k0 ks] eqn:S; [exfalso; exact (split_on_nonnil _ _ S)|].
    change (get (k0 :: ks) 0) with (Ok k0). cbn [bind tl].
    destruct k0 as [|x k0].
    + destruct (walk_untyped (V := V) ks) as (cs & y & W).
      { intros ->. apply Nh. apply upper_nil. rewrite <- (join_split 58 (upper h)), S. reflexivity. }
      rewrite W. cbn [bind]. eexists _, _, _. reflexivity.
    + destruct (walk_untyped (V := V) ((x :: k0) :: ks)) as (cs & y & W); [discriminate|].
      pose proof (f_equal (fun w => bind w (fun r => let '(cs, td, k) := r in
         k1 <- get k 0 ;; kt <- key_match k1 td ;; let '(k2, tc) := kt in
         v <- match tc with Some (TCall f) => f v | _ => Ok (raw v) end ;; Ok (b ++ cs, td, (b ++ cs) ++ [k2], v))) W) as W'.
      eexists _, _, _. etransitivity; [exact W'|]. reflexivity.
  - intro N. apply split1_none in N. unfold interp. rewrite N. reflexivity.
  - intros v ->. reflexivity.
Qed.
Lemma command_cases d : command_ok d \/ ~ In 32 d \/ exists v, d = 32 :: v.
Proof.
  destruct (split1 32 d) as [[h v]|] eqn:E; [|right; left; apply split1_none; exact E].
  apply split1_some in E. destruct E as [-> N]. destruct h as [|x h]; [right; right; exists v; reflexivity|].
  left. exists (x :: h), v. repeat split; [exact N | discriminate].
Qed.
Lemma accepts_untyped {V} (raw : pystr -> V) l : forall asg b,
  match foldM (cmd_step raw None) (asg, (b, None)) l with
  | Ok _ => Forall command_ok l
  | Err e => ~ Forall command_ok l /\ (e = ValueError \/ e = IndexError)
  end.
Proof.
  induction l as [|d l IH]; intros asg b; cbn [foldM]; [constructor|].
  unfold cmd_step at 1. cbn [fst snd]. destruct (interp_untyped raw b d) as (A & B & C).
  destruct (command_cases d) as [H|[H|[v H]]].
  - destruct (A H) as (b' & p & w & E). rewrite E. cbn [bind].
    pose proof (IH (asg ++ [(p, w)]) b') as G. destruct (foldM (cmd_step raw None) _ l) as [?|e].
    + constructor; assumption.
    + destruct G as [G1 G2]. split; [|exact G2]. intro F. apply G1. inversion F; assumption.
  - rewrite (B H). cbn [bind]. split; [|left; reflexivity]. intro F. apply Forall_inv in F. destruct F as (h & w & -> & _ & _). apply H. apply in_app_iff. right. left. reflexivity.
  - rewrite (C v H). cbn [bind]. split; [|right; reflexivity]. intro F. apply Forall_inv in F. destruct F as (h & w & -> & N & Nh).
    destruct h as [|x h]; [contradiction|]. injection H as -> _. apply N. left. reflexivity.
Qed.
