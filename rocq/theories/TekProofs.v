From Coq Require Import String ZArith Bool List Lia Reals Lra.
Import ListNotations.
From Verif Require Import Base Num PyStr ScpiModel ScpiSpec ScpiProofs TekModel TekSpec.
Local Open Scope Z_scope.
Local Open Scope result_scope.

(** ** Splitting the reply *)
Section Split.
Variables (c : Z) (sep' : list Z).
Hypothesis uniq : ~ In c sep'.
Notation sep := (c :: sep').
Lemma split_skip s2 s1 : forall k, length s1 = k -> split_sub sep (s1 ++ s2) k = split_sub sep s2 0.
Proof. induction s1 as [|x s1 IH]; intros k L; subst k; cbn [length app]; [reflexivity|]. cbn [split_sub]. apply IH. reflexivity. Qed.
Lemma split_at s : split_sub sep (sep ++ s) 0 = [] :: split_sub sep s 0.
Proof.
  change (split_sub sep (sep ++ s) 0) with
    (if startswith sep (sep ++ s) then [] :: split_sub sep (sep' ++ s) (length sep - 1)
     else match split_sub sep (sep' ++ s) 0 with [] => [[c]] | p :: ps => (c :: p) :: ps end).
  assert (S : startswith sep (sep ++ s) = true) by (apply startswith_spec; exists s; reflexivity). rewrite S.
  f_equal. apply split_skip. cbn [length]. lia.
Qed.
Lemma split_nonnil s : forall k, split_sub sep s k <> [].
Proof.
  induction s as [|x s IH]; intros k; cbn [split_sub]; [discriminate|]. destruct k; [|apply IH].
  destruct (startswith sep (x :: s)); [discriminate|]. destruct (split_sub sep s 0) eqn:E; discriminate.
Qed.
Lemma no_occurs_tail x s : ~ occurs sep (x :: s) -> ~ occurs sep s.
Proof. intros N (a & b & E). apply N. exists (x :: a), b. rewrite E. reflexivity. Qed.
Lemma no_occurs_starts s : ~ occurs sep s -> startswith sep s = false.
Proof. intro N. destruct (startswith sep s) eqn:E; [|reflexivity]. apply startswith_spec in E. destruct E as (r & ->). destruct N. exists [], r. reflexivity. Qed.
Lemma split_none s : ~ occurs sep s -> split_sub sep s 0 = [s].
Proof.
  induction s as [|x s IH]; intro N; [reflexivity|]. cbn [split_sub]. rewrite (no_occurs_starts _ N), (IH (no_occurs_tail _ _ N)). reflexivity.
Qed.
(** A separator cannot start inside the text and end in the next one. *)
Lemma starts_within x h s : ~ occurs sep (x :: h) -> startswith sep (x :: h ++ sep ++ s) = false.
Proof.
  intro N. destruct (startswith sep (x :: h ++ sep ++ s)) eqn:E; [|reflexivity]. apply startswith_spec in E. destruct E as (r & E). exfalso.
  change (x :: h ++ sep ++ s) with ((x :: h) ++ sep ++ s) in E.
  destruct (le_lt_dec (length sep) (length (x :: h))) as [L|L].
  - apply N. exists [], (skipn (length sep) (x :: h)). cbn [app].
    assert (F := f_equal (firstn (length sep)) E). rewrite firstn_app, (proj2 (Nat.sub_0_le _ _) L), firstn_O, app_nil_r in F.
    rewrite firstn_app, Nat.sub_diag, firstn_O, app_nil_r, firstn_all in F.
    etransitivity; [symmetry; apply (firstn_skipn (length sep))|]. rewrite F. reflexivity.
  - injection E as -> E. cbn [length] in L.
    (* the character c at position length h of sep' *)
    assert (F := f_equal (fun l => nth_error l (length h)) E). cbn beta in F.
    rewrite nth_error_app2, Nat.sub_diag in F by lia. cbn [nth_error app] in F.
    rewrite nth_error_app1 in F by lia. symmetry in F. apply nth_error_In in F. exact (uniq F).
Qed.
Lemma split_first h s : ~ occurs sep h -> split_sub sep (h ++ sep ++ s) 0 = h :: split_sub sep s 0.
Proof.
  induction h as [|x h IH]; intro N; [exact (split_at s)|].
  change ((x :: h) ++ sep ++ s) with (x :: (h ++ sep ++ s)). cbn [split_sub].
  rewrite (starts_within _ _ _ N), (IH (no_occurs_tail _ _ N)). reflexivity.
Qed.
Lemma split_many s : occurs sep s -> (2 <= length (split_sub sep s 0))%nat.
Proof.
  induction s as [|x s IH]; intros (a & b & E).
  - destruct a; discriminate.
  - cbn [split_sub]. destruct (startswith sep (x :: s)) eqn:S.
    + pose proof (split_nonnil s (length sep - 1)). destruct (split_sub sep s (length sep - 1)); [congruence|cbn; lia].
    + destruct a as [|y a].
      * assert (T : startswith sep (x :: s) = true) by (apply startswith_spec; exists b; exact E). congruence.
      * injection E as -> E. specialize (IH (ex_intro _ a (ex_intro _ b E))). destruct (split_sub sep s 0) as [|p ps]; cbn in *; lia.
Qed.
End Split.
Lemma mark_uniq long : exists c s, curve_mark long = c :: s /\ ~ In c s.
Proof. destruct long; cbn [curve_mark]; eexists; eexists; (split; [reflexivity|]); cbn; intuition discriminate. Qed.
Lemma split_reply_ok long text curve : marked long text curve -> split_reply (reply_bytes long text curve) = Ok (text, curve).
Proof.
  intros (N1 & N2 & N3). unfold split_reply. destruct (mark_uniq long) as (c & s & E & U).
  assert (X : split_sub (curve_mark long) (reply_bytes long text curve) 0 = [text; curve]).
  { unfold reply_bytes. rewrite E in * . rewrite split_first by assumption. rewrite split_none by assumption. reflexivity. }
  destruct long.
  - change (str ";:CURVE ") with (curve_mark true). rewrite X. reflexivity.
  - specialize (N3 eq_refl). destruct (mark_uniq true) as (c' & s' & E' & U'). change (str ";:CURVE ") with (curve_mark true). change (str ";:CURV ") with (curve_mark false).
    rewrite X. rewrite E' in * . rewrite split_none by assumption. reflexivity.
Qed.
Lemma split_reply_ambiguous text curve : ~ occurs (curve_mark true) text -> occurs (curve_mark true) curve ->
  ~ occurs (curve_mark false) (reply_bytes true text curve) -> split_reply (reply_bytes true text curve) = Err ValueError.
Proof.
  intros N O N2. unfold split_reply. destruct (mark_uniq true) as (c & s & E & U). destruct (mark_uniq false) as (c' & s' & E' & U').
  change (str ";:CURVE ") with (curve_mark true). change (str ";:CURV ") with (curve_mark false).
  assert (X : split_sub (curve_mark false) (reply_bytes true text curve) 0 = [reply_bytes true text curve]).
  { rewrite E' in * . apply split_none. exact N2. }
  rewrite X. unfold reply_bytes. rewrite E in * . rewrite split_first by assumption.
  pose proof (split_many c s curve O) as L. destruct (split_sub (c :: s) curve 0) as [|p [|q l]]; cbn in L; try lia. reflexivity.
Qed.

(** ** Closing quotes *)
Definition nrpt : pystr := str ";NR_PT".
Lemma close_quotes_id s : forall prev, (startswith nrpt s = true -> prev = 34) ->
  (forall a b, s = a ++ nrpt ++ b -> a = [] \/ exists a', a = a' ++ [34]) -> close_quotes prev s = s.
Proof.
  induction s as [|c s IH]; intros prev P H; [reflexivity|]. cbn [close_quotes]. fold nrpt.
  assert (X : startswith nrpt (c :: s) && negb (prev =? 34) = false).
  { destruct (startswith nrpt (c :: s)) eqn:S; [|reflexivity]. rewrite (P eq_refl). reflexivity. }
  rewrite X. cbn [app]. f_equal. apply IH.
  - intro S. apply startswith_spec in S. destruct S as (r & S). destruct (H [c] r) as [E|(a' & E)]; [cbn; f_equal; exact S|discriminate|].
    destruct a' as [|? [|? ?]]; try discriminate. injection E as ->. reflexivity.
  - intros a b E. destruct (H (c :: a) b) as [F|(a' & F)]; [cbn; f_equal; exact E|discriminate|].
    destruct a' as [|x a']; cbn in F; injection F as _ F; [left; exact F|right; exists a'; exact F].
Qed.
Lemma close_quotes_tail s : forall prev, startswith nrpt s = false -> ~ occurs nrpt s -> close_quotes prev s = s.
Proof.
  intros prev S N. apply close_quotes_id; [intro X; congruence|]. intros a b E. destruct N. exists a, b. exact E.
Qed.
Lemma nrpt_head : nrpt = 59 :: tl nrpt /\ ~ In 59 (tl nrpt). Proof. split; [reflexivity|cbn; intuition discriminate]. Qed.
Lemma starts_inside x a b : ~ occurs nrpt (x :: a) -> startswith nrpt (x :: a ++ nrpt ++ b) = false.
Proof. destruct nrpt_head as [E U]. intro N. rewrite E in * . apply starts_within; assumption. Qed.
Lemma close_quotes_missing a b : forall prev, ~ occurs nrpt a -> ~ occurs nrpt (tl nrpt ++ b) ->
  last (prev :: a) 0 <> 34 -> close_quotes prev (a ++ nrpt ++ b) = a ++ 34 :: nrpt ++ b.
Proof.
  induction a as [|c a IH]; intros prev N N2 L.
  - assert (T2 : startswith nrpt (tl nrpt ++ b) = false).
    { destruct (startswith nrpt (tl nrpt ++ b)) eqn:X; [|reflexivity].
      apply startswith_spec in X. destruct X as (r & X). destruct N2. exists [], r. exact X. }
    assert (Y := close_quotes_tail (tl nrpt ++ b) 59 T2 N2).
    assert (S : startswith nrpt (59 :: tl nrpt ++ b) = true) by (apply startswith_spec; exists b; reflexivity).
    cbn [last] in L. apply Z.eqb_neq in L.
    change ((if startswith nrpt (59 :: tl nrpt ++ b) && negb (prev =? 34) then [34] else []) ++ 59 :: close_quotes 59 (tl nrpt ++ b) = 34 :: 59 :: (tl nrpt ++ b)).
    rewrite S, L, Y. reflexivity.
  - change ((c :: a) ++ nrpt ++ b) with (c :: (a ++ nrpt ++ b)). cbn [close_quotes]. fold nrpt.
    assert (S : startswith nrpt (c :: a ++ nrpt ++ b) = false) by (apply starts_inside; exact N).
    rewrite S. cbn [andb app]. f_equal. apply IH.
    + intros (x & y & E). apply N. exists (c :: x), y. cbn. rewrite E. reflexivity.
    + exact N2.
    + exact L.
Qed.

(** ** Binary codes *)
Lemma bytes_le_length n : forall u, length (bytes_le n u) = n.
Proof. induction n; intro u; cbn; [reflexivity|]. f_equal. apply IHn. Qed.
Lemma unsigned_bytes n : forall u, 0 <= u < 256 ^ Z.of_nat n -> unsigned_le (bytes_le n u) = u.
Proof.
  induction n as [|n IH]; intros u B.
  - cbn in * . lia.
  - cbn [bytes_le unsigned_le]. rewrite IH; [pose proof (Z.div_mod u 256); lia|].
    rewrite Nat2Z.inj_succ, Z.pow_succ_r in B by lia. split; [apply Z.div_pos; lia|apply Z.div_lt_upper_bound; lia].
Qed.
Lemma wire_length msb size code : 0 <= size -> length (wire msb size code) = Z.to_nat size.
Proof. intro S. unfold wire. destruct msb; [rewrite rev_length|]; apply bytes_le_length. Qed.
Lemma decode_wire msb signed size code : 1 <= size -> fits signed size code -> decode_int msb signed (wire msb size code) = code.
Proof.
  intros S F. unfold decode_int, wire.
  assert (P : 2 ^ (8 * size) = 2 * 2 ^ (8 * size - 1)) by (rewrite <- Z.pow_succ_r by lia; f_equal; lia).
  assert (Q : 256 ^ size = 2 ^ (8 * size)) by (rewrite Z.pow_mul_r by lia; reflexivity).
  assert (R : 0 < 2 ^ (8 * size - 1)) by (apply Z.pow_pos_nonneg; lia).
  assert (U : 0 <= code mod 256 ^ size < 256 ^ Z.of_nat (Z.to_nat size)) by (rewrite Z2Nat.id by lia; apply Z.mod_pos_bound; lia).
  set (bs := bytes_le (Z.to_nat size) (code mod 256 ^ size)).
  assert (L : unsigned_le (if msb then rev (if msb then rev bs else bs) else (if msb then rev bs else bs)) = code mod 256 ^ size).
  { destruct msb; rewrite ?rev_involutive; apply unsigned_bytes, U. }
  rewrite L. assert (LN : Z.of_nat (length (if msb then rev bs else bs)) = size).
  { destruct msb; rewrite ?rev_length; unfold bs; rewrite bytes_le_length; lia. }
  destruct signed; unfold fits in F.
  - rewrite LN. unfold signed_of. rewrite Q. destruct (Z.ltb_spec (code mod 2 ^ (8 * size)) (2 ^ (8 * size - 1))) as [A|A].
    + destruct (Z_lt_le_dec code 0) as [C|C]; [|apply Z.mod_small; lia].
      exfalso. rewrite <- (Z.mod_add code 1) in A by lia. rewrite Z.mod_small in A by lia. lia.
    + destruct (Z_lt_le_dec code 0) as [C|C]; [|rewrite Z.mod_small in A by lia; lia].
      rewrite <- (Z.mod_add code 1) by lia. rewrite Z.mod_small by lia. lia.
  - rewrite Q. apply Z.mod_small. exact F.
Qed.
Lemma payload_length msb size codes : 0 <= size -> Z.of_nat (length (payload msb size codes)) = Z.of_nat (length codes) * size.
Proof.
  intro S. induction codes as [|c codes IH]; [reflexivity|]. unfold payload in * . cbn [flat_map length]. rewrite app_length, wire_length by exact S. lia.
Qed.
Lemma chunks_payload msb size codes : 1 <= size -> forall fuel, (length codes <= fuel)%nat ->
  chunks (Z.to_nat size) fuel (payload msb size codes) = map (wire msb size) codes.
Proof.
  intros S. induction codes as [|c codes IH]; intros fuel F.
  - destruct fuel; reflexivity.
  - destruct fuel as [|fuel]; [cbn in F; lia|]. unfold payload in * . cbn [flat_map map].
    assert (L : length (wire msb size c) = Z.to_nat size) by (apply wire_length; lia).
    destruct (wire msb size c ++ flat_map (wire msb size) codes) as [|b bs] eqn:E.
    { apply app_eq_nil in E. destruct E as [E _]. rewrite E in L. cbn in L. lia. }
    cbn [chunks]. rewrite <- E. rewrite firstn_app, <- L, Nat.sub_diag, firstn_O, app_nil_r, firstn_all.
    rewrite skipn_app, Nat.sub_diag, skipn_all. cbn [app skipn]. f_equal. rewrite L. apply IH. cbn in F. lia.
Qed.
Lemma frombuffer_payload msb signed size codes : size = 1 \/ size = 2 -> Forall (fits signed size) codes ->
  frombuffer msb signed size (payload msb size codes) = Ok codes.
Proof.
  intros S F. unfold frombuffer.
  assert (X : (size =? 1) || (size =? 2) || (size =? 4) || (size =? 8) = true) by (destruct S as [-> | ->]; reflexivity). rewrite X.
  rewrite payload_length by lia. rewrite Z.mod_mul by lia. cbn [Z.eqb].
  rewrite chunks_payload; [|lia|].
  - f_equal. rewrite map_map. etransitivity; [|apply map_id]. apply map_ext_in. intros c I. apply decode_wire; [lia|].
    rewrite Forall_forall in F. apply F, I.
  - pose proof (payload_length msb size codes ltac:(lia)). nia.
Qed.
Lemma slice_block (digits data tail : list Z) c d n : n = Z.of_nat (length data) ->
  slice (c :: d :: digits ++ data ++ tail) (2 + Z.of_nat (length digits)) (2 + Z.of_nat (length digits) + n) = data.
Proof.
  intros ->. unfold slice. rewrite (proj2 (Z.ltb_ge _ _)) by lia.
  replace (Z.to_nat (2 + Z.of_nat (length digits))) with (S (S (length digits))) by lia. cbn [skipn].
  rewrite skipn_app, skipn_all, Nat.sub_diag. cbn [app skipn].
  replace (Z.to_nat _) with (length data) by lia. rewrite firstn_app, Nat.sub_diag, firstn_O, app_nil_r, firstn_all. reflexivity.
Qed.
Lemma hex_digit_dec k : (k <= 15)%nat -> hex_digit (hex_char k) = Ok (Z.of_nat k).
Proof. intro L. do 16 (destruct k as [|k]; [reflexivity|]). lia. Qed.
Lemma zmax_exists m l x : (m <=? fold_left Z.max l x) = existsb (fun c => m <=? c) (x :: l).
Proof.
  revert x. induction l as [|y l IH]; intro x; cbn [fold_left existsb]; [rewrite orb_false_r; reflexivity|].
  rewrite IH. cbn [existsb]. rewrite orb_assoc. f_equal.
  destruct (Z.leb_spec m (Z.max x y)), (Z.leb_spec m x), (Z.leb_spec m y); try reflexivity; lia.
Qed.
Lemma zmin_exists m l x : (fold_left Z.min l x <=? m) = existsb (fun c => c <=? m) (x :: l).
Proof.
  revert x. induction l as [|y l IH]; intro x; cbn [fold_left existsb]; [rewrite orb_false_r; reflexivity|].
  rewrite IH. cbn [existsb]. rewrite orb_assoc. f_equal.
  destruct (Z.leb_spec (Z.min x y) m), (Z.leb_spec x m), (Z.leb_spec y m); try reflexivity; lia.
Qed.
Lemma arange_length n : length (arange n) = Z.to_nat n.
Proof. unfold arange. rewrite map_length, seq_length. reflexivity. Qed.

(** ** The preamble *)
Section Header.
Context {A : Type} `{NA : Num A}.
Variable to_float : pystr -> result A.
Lemma nested_one (rs : list (path * value A)) outer : rs <> [] -> Forall (fun r => exists k rest, fst r = outer :: k :: rest) rs ->
  exists l, nested_state rs = [(outer, Node l)].
Proof.
  induction rs as [|r rs IH] using rev_ind; intros NE F; [congruence|]. destruct r as [q w].
  apply Forall_app in F. destruct F as [F1 F2]. inversion_clear F2 as [|? ? (k & rest & E) _]. cbn [fst] in E. subst q.
  rewrite nested_snoc. destruct rs as [|r0 rs].
  - eexists. rewrite tassign_cons. reflexivity.
  - destruct (IH ltac:(discriminate) F1) as (l & ->). rewrite tassign_cons. cbn [tset]. rewrite str_eqb_refl. eexists. reflexivity.
Qed.
Lemma header_of settings cs rs outer text : settings <> [] -> Forall well_formed settings -> last_text_ok settings -> reply [] settings cs ->
  Forall2 (stored VStr (Some (tek_types to_float))) settings rs -> close_quotes 0 text = join 59 cs ->
  Forall (fun r => exists k rest, fst r = outer :: k :: rest) rs ->
  exists l, bind (parse_scpi_nested VStr (Some (tek_types to_float)) (close_quotes 0 text)) popitem = Ok l /\
    forall k v, survives rs [outer; str k] v -> entry l k = Ok v.
Proof.
  intros N W L R S Q O. rewrite Q.
  pose proof (assignments_reply VStr (Some (tek_types to_float)) _ _ _ R W N (last_text_last _ N L) S) as As.
  rewrite parse_nested_eq, As.
  assert (NE : rs <> []) by (intros ->; inversion S; subst; congruence).
  destruct (nested_one rs outer NE O) as (l & E). exists l. split.
  - cbn [bind]. etransitivity; [exact (f_equal popitem E)|]. reflexivity.
  - intros k v SV. assert (NN : Forall (fun r => fst r <> []) rs) by (eapply Forall_impl; [|exact O]; intros r (a & b & X) Y; congruence).
    apply nested_get in SV; [|exact NN]. rewrite E in SV. rewrite tget_cons in SV. cbn [tfind] in SV. rewrite str_eqb_refl in SV.
    unfold entry. cbn [tget] in SV. destruct (tfind l (str k)) as [[v'|?]|]; try discriminate. injection SV as ->. reflexivity.
Qed.
End Header.

Lemma quote_repaired full text : quote_lost full text -> close_quotes 0 text = full.
Proof.
  intros [(-> & Q) | (a & b & -> & -> & NA & NB & E)].
  - apply close_quotes_id.
    + intro S. apply startswith_spec in S. destruct S as (r & S). destruct (Q [] r S) as (a' & X). destruct a'; discriminate.
    + intros a b X. right. exact (Q a b X).
  - change (close_quotes 0 (a ++ nrpt ++ b) = a ++ 34 :: nrpt ++ b). apply close_quotes_missing; [exact NA| |].
    + intros (u & v & X). destruct nrpt_head as [H0 U].
      assert (LE : (length (tl nrpt) <= length u)%nat).
      { destruct (le_lt_dec (length (tl nrpt)) (length u)) as [L|L]; [exact L|]. exfalso. apply U.
        assert (N : nth_error (tl nrpt ++ b) (length u) = Some 59).
        { rewrite X, nth_error_app2, Nat.sub_diag by lia. reflexivity. }
        rewrite nth_error_app1 in N by exact L. eapply nth_error_In, N. }
      apply NB. exists (skipn (length (tl nrpt)) u), v.
      assert (Y : skipn (length (tl nrpt)) (tl nrpt ++ b) = skipn (length (tl nrpt)) (u ++ nrpt ++ v)) by (rewrite X; reflexivity).
      rewrite skipn_app, skipn_all, Nat.sub_diag in Y. cbn [skipn app] in Y. rewrite Y, skipn_app.
      replace (length (tl nrpt) - length u)%nat with 0%nat by lia. reflexivity.
    + destruct (exists_last (l := 0 :: a)) as (l' & x & X); [discriminate|]. rewrite X, last_last. intros ->.
      destruct l' as [|y l']; [discriminate|]. injection X as _ X. exact (E l' X).
Qed.
(** ** A well-formed reply *)
Section Reply.
Context {A : Type} `{NA : Num A}.
Variable to_float : pystr -> result A.
Variable uniform : Z -> Z -> list A.
Variable utf8 : list Z -> option pystr.
Local Open Scope num_scope.
Definition result_of (pre : preamble A) (codes : list Z) (wave : list A) (raw : bool) : waveform A :=
  let m := limit (p_size pre) in
  let scale w := (w -. p_yoff pre) *. p_ymult pre +. p_yzero pre in
  Waveform (map (fun i => p_xzero pre +. p_xincr pre *. nofZ (Z.of_nat i)) (seq 0 (length codes)))
    (if raw then wave else map scale wave) (p_id pre) (p_xunit pre)
    (if raw then str "ADC Counts" else p_yunit pre) (p_xincr pre) (if raw then nofZ 1 else p_ymult pre)
    (if raw then nofZ (- m) else scale (nofZ (- m))) (if raw then nofZ m else scale (nofZ m))
    (existsb (fun c => (m <=? c)%Z) codes) (existsb (fun c => (c <=? - m)%Z) codes).
Lemma pwq long text s pre codes digits tail raw add_noise :
  let curve := block digits (payload (p_msb pre) (p_size pre) codes ++ tail) in
  marked long text curve -> (length digits <= 15)%nat -> utf8 text = Some s -> sent to_float pre s ->
  p_size pre = 1%Z \/ p_size pre = 2%Z -> codes <> [] -> Forall (fits (p_signed pre) (p_size pre)) codes -> p_points pre = Z.of_nat (length codes) ->
  parse_waveform_query to_float uniform utf8 (reply_bytes long text curve) raw add_noise =
  bind (if add_noise then dither uniform (p_size pre) (limit (p_size pre)) (p_points pre) codes else Ok (map nofZ codes))
    (fun wave => if Nat.eqb (length codes) (length wave) then Ok (result_of pre codes wave raw) else Err ValueError).
Proof.
  intros curve M DG U SN SZ NE F P. unfold parse_waveform_query. rewrite (split_reply_ok _ _ _ M). cbn [bind].
  destruct SN as (settings & cs & rs & outer & byt_or & bn_fmt & N & W & L & R & S & Q & O & F1 & F2 & F3 & MS & F4 & SG & F5 & F6 & F7 & F8 & F9 & F10 & F11 & F12).
  destruct (header_of to_float settings cs rs outer s N W L R S (quote_repaired _ _ Q) O) as (l & HL & EN).
  assert (PH : parse_header to_float utf8 text = Ok l) by (unfold parse_header; rewrite U; exact HL). rewrite PH. cbn [bind].
  unfold int_entry, float_entry, str_entry.
  rewrite (EN _ _ F2), (EN _ _ F7), (EN _ _ F8), (EN _ _ F6), (EN _ _ F5), (EN _ _ F3), (EN _ _ F4), (EN _ _ F1), (EN _ _ F9), (EN _ _ F10), (EN _ _ F11), (EN _ _ F12).
  cbn [bind]. unfold curve, block. cbn [get nth_error]. unfold get. cbn [nth_error bind]. rewrite (hex_digit_dec _ DG). cbn [bind].
  assert (ES : p_msb pre = str_eqb byt_or (str "MSB")).
  { destruct (str_eqb byt_or (str "MSB")) eqn:E; [apply MS, str_eqb_eq, E|]. destruct (p_msb pre); [|reflexivity].
    rewrite (proj1 MS eq_refl), str_eqb_refl in E. discriminate. }
  assert (EG : p_signed pre = str_eqb bn_fmt (str "RI")).
  { destruct (str_eqb bn_fmt (str "RI")) eqn:E; [apply SG, str_eqb_eq, E|]. destruct (p_signed pre); [|reflexivity].
    rewrite (proj1 SG eq_refl), str_eqb_refl in E. discriminate. }
  rewrite <- ES, <- EG.
  rewrite (slice_block digits (payload (p_msb pre) (p_size pre) codes) tail) by (rewrite payload_length by lia; rewrite P; reflexivity).
  rewrite (frombuffer_payload _ _ _ _ SZ F). cbn [bind].
  assert (MX : max_val (p_size pre) = Ok (limit (p_size pre))) by (destruct SZ as [-> | ->]; reflexivity).
  rewrite MX. cbn [bind]. destruct codes as [|c0 codes']; [congruence|]. cbn [zmax zmin bind]. rewrite zmax_exists, zmin_exists.
  rewrite !map_length, arange_length, P, Nat2Z.id.
  destruct (if add_noise then _ else _) as [wave|e]; cbn [bind]; [|reflexivity].
  destruct (Nat.eqb (length (c0 :: codes')) (length wave)); [|reflexivity].
  assert (X : map (fun i => p_xzero pre +. p_xincr pre *. nofZ i) (arange (Z.of_nat (length (c0 :: codes')))) =
              map (fun i => p_xzero pre +. p_xincr pre *. nofZ (Z.of_nat i)) (seq 0 (length (c0 :: codes')))).
  { unfold arange. rewrite map_map, Nat2Z.id. reflexivity. }
  rewrite X. unfold result_of. destruct raw; reflexivity.
Qed.
(** A payload that is too short. *)
Lemma chunks_count size : forall fuel bs, (1 <= size)%nat -> (length bs <= fuel)%nat -> (length (chunks size fuel bs) * size < length bs + size)%nat.
Proof.
  intros fuel bs SZ. revert bs. induction fuel as [|fuel IH]; intros bs L; [destruct bs; cbn in *; lia|]. destruct bs as [|b bs]; [cbn; lia|].
  cbn [chunks length]. specialize (IH (skipn size (b :: bs))). rewrite skipn_length in IH. cbn [length] in IH, L.
  destruct (le_lt_dec size (S (length bs))) as [X|X]; [specialize (IH ltac:(lia)); lia|].
  rewrite skipn_all2 by (cbn [length]; lia). replace (chunks size fuel []) with (@nil (list Z)) by (destruct fuel; reflexivity). cbn [length]. lia.
Qed.
Lemma pwq_short long text s (pre : preamble A) digits data raw add_noise :
  let curve := block digits data in
  marked long text curve -> (length digits <= 15)%nat -> utf8 text = Some s -> sent to_float pre s ->
  p_size pre = 1%Z \/ p_size pre = 2%Z -> (forall k n, length (uniform k n) = Z.to_nat n) ->
  (Z.of_nat (length data) < p_points pre * p_size pre)%Z ->
  parse_waveform_query to_float uniform utf8 (reply_bytes long text curve) raw add_noise = Err ValueError.
Proof.
  intros curve M DG U SN SZ UN SH. unfold parse_waveform_query. rewrite (split_reply_ok _ _ _ M). cbn [bind].
  destruct SN as (settings & cs & rs & outer & byt_or & bn_fmt & N & W & L & R & ST & Q & O & F1 & F2 & F3 & MS & F4 & SG & F5 & F6 & F7 & F8 & F9 & F10 & F11 & F12).
  destruct (header_of to_float settings cs rs outer s N W L R ST (quote_repaired _ _ Q) O) as (l & HL & EN).
  assert (PH : parse_header to_float utf8 text = Ok l) by (unfold parse_header; rewrite U; exact HL). rewrite PH. cbn [bind].
  unfold int_entry, float_entry, str_entry.
  rewrite (EN _ _ F2), (EN _ _ F7), (EN _ _ F8), (EN _ _ F6), (EN _ _ F5), (EN _ _ F3), (EN _ _ F4), (EN _ _ F1).
  cbn [bind]. unfold curve, block. unfold get. cbn [nth_error bind]. rewrite (hex_digit_dec _ DG). cbn [bind].
  assert (SLI : slice (35%Z :: hex_char (length digits) :: digits ++ data) (2 + Z.of_nat (length digits)) (2 + Z.of_nat (length digits) + p_points pre * p_size pre) = data).
  { unfold slice. rewrite (proj2 (Z.ltb_ge _ _)) by lia.
    replace (Z.to_nat (2 + Z.of_nat (length digits))) with (S (S (length digits))) by lia. cbn [skipn].
    rewrite skipn_app, skipn_all, Nat.sub_diag. cbn [app skipn]. apply firstn_all2. lia. }
  rewrite SLI. unfold frombuffer.
  assert (X : ((p_size pre =? 1) || (p_size pre =? 2) || (p_size pre =? 4) || (p_size pre =? 8))%Z = true) by (destruct SZ as [-> | ->]; reflexivity).
  rewrite X. destruct (Z.of_nat (length data) mod p_size pre =? 0)%Z eqn:MD; [|reflexivity]. cbn [bind].
  set (codes := map _ (chunks _ _ _)).
  assert (CL : (Z.of_nat (length codes) < p_points pre)%Z).
  { unfold codes. rewrite map_length. pose proof (chunks_count (Z.to_nat (p_size pre)) (length data) data ltac:(lia) ltac:(lia)) as CC.
    apply Z.eqb_eq in MD. apply Z.mod_divide in MD; [|lia]. destruct MD as (q & MD).
    destruct SZ as [E | E]; rewrite E in * ; [change (Z.to_nat 1) with 1%nat in *|change (Z.to_nat 2) with 2%nat in *]; lia. }
  assert (MX : max_val (p_size pre) = Ok (limit (p_size pre))) by (destruct SZ as [-> | ->]; reflexivity).
  rewrite MX. cbn [bind]. destruct codes as [|c0 codes'] eqn:EC; [reflexivity|]. cbn [zmax zmin bind]. rewrite <- EC.
  rewrite !map_length, arange_length.
  destruct add_noise.
  - unfold dither. rewrite UN. assert (Y : Nat.eqb (Z.to_nat (p_points pre)) (length codes) = false) by (apply Nat.eqb_neq; rewrite EC; lia). rewrite Y. reflexivity.
  - cbn [bind]. rewrite map_length. assert (Y : Nat.eqb (Z.to_nat (p_points pre)) (length codes) = false) by (apply Nat.eqb_neq; rewrite EC; lia). rewrite Y. reflexivity.
Qed.
End Reply.

(** ** Dither *)
Lemma divide_bits c k : 0 <= k -> ((2 ^ k | c) <-> forall i, 0 <= i < k -> Z.testbit c i = false).
Proof.
  intro K. assert (P : 0 < 2 ^ k) by (apply Z.pow_pos_nonneg; lia). split.
  - intros (q & ->) i I. rewrite Z.mul_pow2_bits by lia. apply Z.testbit_neg_r. lia.
  - intro B. apply Z.mod_divide; [lia|]. apply Z.bits_inj'. intros i I. rewrite Z.bits_0.
    destruct (Z_lt_le_dec i k) as [L|L]; [rewrite Z.mod_pow2_bits_low by lia; apply B; lia|apply Z.mod_pow2_bits_high; lia].
Qed.
Lemma fold_lor_bits codes : forall a i, Z.testbit (fold_left Z.lor codes a) i = Z.testbit a i || existsb (fun c => Z.testbit c i) codes.
Proof.
  induction codes as [|c codes IH]; intros a i; cbn [fold_left existsb]; [rewrite orb_false_r; reflexivity|].
  rewrite IH, Z.lor_spec, orb_assoc. reflexivity.
Qed.
Lemma find_lsb_spec n : forall j x, 0 <= j ->
  let k := find_lsb n j x in j <= k <= j + Z.of_nat n /\ (forall i, j <= i < k -> Z.testbit x i = false) /\ (k < j + Z.of_nat n -> Z.testbit x k = true).
Proof.
  induction n as [|n IH]; intros j x J; cbn [find_lsb]; cbv zeta.
  - split; [lia|]. split; intros; lia.
  - destruct (Z.testbit x j) eqn:T.
    + split; [lia|]. split; [intros; lia|]. intros _. exact T.
    + destruct (IH (j + 1) x ltac:(lia)) as (B & Z1 & Z2). split; [lia|]. split.
      * intros i I. destruct (Z.eq_dec i j) as [->|]; [exact T|]. apply Z1. lia.
      * intro L. apply Z2. lia.
Qed.
Lemma lsb_granularity signed size codes : 1 <= size -> Forall (fits signed size) codes -> granularity size codes (lsb_of size codes) /\ 0 <= lsb_of size codes.
Proof.
  intros S F. unfold lsb_of. set (x := fold_left Z.lor codes 0).
  assert (BX : forall i, Z.testbit x i = existsb (fun c => Z.testbit c i) codes).
  { intro i. unfold x. rewrite fold_lor_bits, Z.bits_0. reflexivity. }
  destruct (find_lsb_spec (Z.to_nat (8 * size)) 0 x ltac:(lia)) as (B & Z1 & Z2). set (k := find_lsb _ 0 x) in * .
  split; [|lia].
  assert (DV : Forall (fun c => (2 ^ k | c)) codes).
  { apply Forall_forall. intros c I. apply divide_bits; [lia|]. intros i L. specialize (Z1 i ltac:(lia)). rewrite BX in Z1.
    destruct (Z.testbit c i) eqn:T; [|reflexivity]. assert (Y : existsb (fun c => Z.testbit c i) codes = true) by (apply existsb_exists; exists c; split; assumption). congruence. }
  destruct (Z.eq_dec k (8 * size)) as [E|E].
  - right. split; [|exact E]. apply Forall_forall. intros c I. rewrite Forall_forall in F, DV. specialize (F c I). destruct (DV c I) as (q & Q).
    rewrite E in Q. assert (P : 2 ^ (8 * size) = 2 * 2 ^ (8 * size - 1)) by (rewrite <- Z.pow_succ_r by lia; f_equal; lia).
    assert (P0 : 0 < 2 ^ (8 * size - 1)) by (apply Z.pow_pos_nonneg; lia).
    unfold fits in F. destruct signed; destruct (Z.eq_dec q 0); try nia.
  - left. split; [exact DV|]. split; [lia|]. specialize (Z2 ltac:(lia)). rewrite BX in Z2. apply existsb_exists in Z2. destruct Z2 as (c & I & T).
    exists c. split; [exact I|]. intro DD. apply (proj1 (divide_bits c (k + 1) ltac:(lia))) with (i := k) in DD; [congruence|lia].
Qed.
From Verif Require Import RBool.
Lemma dither1_spec m c u k : 1 <= m -> 0 <= k -> (- (IZR (2 ^ k) / 2) <= u < IZR (2 ^ k) / 2)%R ->
  let y := dither1 m (IZR c) u in
  (- m <= c <= m -> (Rabs (y - IZR c) <= IZR (2 ^ k) / 2)%R) /\ (Rabs y <= IZR m)%R /\
  (k = 0 -> m <= c -> y = IZR m) /\ (k = 0 -> c <= - m -> y = IZR (- m)).
Proof.
  intros M K U. unfold dither1. cbn [nadd nsub nle nlt nofZ nhalf NumR].
  assert (MR : (1 <= IZR m)%R) by (apply IZR_le; exact M). rewrite opp_IZR.
  assert (P1 : k = 0 -> IZR (2 ^ k) = 1%R) by (intros ->; reflexivity).
  assert (PG : (1 <= IZR (2 ^ k))%R) by (apply IZR_le; assert (0 < 2 ^ k) by (apply Z.pow_pos_nonneg; lia); lia).
  assert (INT : forall a : Z, (2 * IZR a < IZR (2 ^ k) + 1)%R -> (IZR a <= IZR (2 ^ k) / 2)%R).
  { intros a L. rewrite <- (mult_IZR 2 a) in L. change 1%R with (IZR 1) in L. rewrite <- plus_IZR in L. apply lt_IZR in L.
    assert (X : (IZR (2 * a) <= IZR (2 ^ k))%R) by (apply IZR_le; lia). rewrite mult_IZR in X. lra. }
  destruct (Rleb (IZR m - / 2) (IZR c + u)) eqn:E1; [apply Rleb_true in E1|apply Rleb_false in E1].
  - assert (X : Rltb (IZR m) (- IZR m + / 2) = false) by (apply Rltb_false; lra). rewrite X. cbv zeta. repeat apply conj.
    + intros [B1 B2]. apply IZR_le in B2. rewrite Rabs_pos_eq by lra. rewrite <- minus_IZR. apply INT. rewrite minus_IZR. lra.
    + rewrite Rabs_pos_eq; lra.
    + intros _ _. reflexivity.
    + intros -> C. exfalso. apply IZR_le in C. rewrite opp_IZR in C. rewrite P1 in U by reflexivity. lra.
  - destruct (Rltb (IZR c + u) (- IZR m + / 2)) eqn:E2; [apply Rltb_true in E2|apply Rltb_false in E2]; cbv zeta; repeat apply conj.
    + intros [B1 B2]. apply IZR_le in B1. rewrite opp_IZR in B1. rewrite Rabs_left1 by lra.
      replace (- (- IZR m - IZR c))%R with (IZR (c + m)) by (rewrite plus_IZR; lra). apply INT. rewrite plus_IZR. lra.
    + rewrite Rabs_left1; lra.
    + intros -> C. exfalso. apply IZR_le in C. rewrite P1 in U by reflexivity. lra.
    + intros _ _. reflexivity.
    + intros _. replace (IZR c + u - IZR c)%R with u by lra. apply Rabs_le. lra.
    + apply Rabs_le. lra.
    + intros -> C. exfalso. apply IZR_le in C. rewrite P1 in U by reflexivity. lra.
    + intros -> C. exfalso. apply IZR_le in C. rewrite opp_IZR in C. rewrite P1 in U by reflexivity. lra.
Qed.

(** ** Computing with the tables *)
Lemma not_occurs long s : length (split_sub (curve_mark long) s 0) = 1%nat -> ~ occurs (curve_mark long) s.
Proof. destruct (mark_uniq long) as (c & q & E & U). rewrite E. intros L O. apply split_many in O. lia. Qed.
Lemma selects_words {V} (l : list (pystr * types V)) k kw t :
  last k 0 <> 10 -> Forall (fun kt => Forall (fun c => is_word c = true) (fst kt)) l ->
  find (fun kt => rmatch (tokens (fst kt)) k) l = Some (kw, t) -> selects l k kw t.
Proof.
  intros N W F. apply find_first in F. destruct F as (l1 & l2 & -> & M & R). cbn [fst] in M.
  assert (WL : forall kt, In kt (l1 ++ (kw, t) :: l2) -> Forall is_alternative [Word (fst kt)]).
  { intros kt I. constructor; [|constructor]. rewrite Forall_forall in W. exact (W kt I). }
  exists l1, kw, l2, [Word kw]. repeat split.
  - apply (WL (kw, t)). apply in_or_app. right. left. reflexivity.
  - exists [], []. repeat split; [|intros x []]. apply spelled; assumption.
  - intros kd' t' I. exists [Word kd']. repeat split; [discriminate| |].
    + apply (WL (kd', t')). apply in_or_app. left. exact I.
    + intros x [<-|[]]. apply not_spelled; [exact N|]. exact (R (kd', t') I).
Qed.
Definition waveform_list {A} `{Num A} (to_float : pystr -> result A) : list (pystr * types (value A)) :=
  match waveform_types to_float with TDict l => l | _ => [] end.
Lemma stored_waveform {A} `{Num A} (to_float : pystr -> result A) node v kw f w ck :
  last (upper node) 0 <> 10 ->
  find (fun kt => rmatch (tokens (fst kt)) (upper node)) (waveform_list to_float) = Some (kw, TCall f) -> f v = Ok w -> ck = upper kw ->
  stored VStr (Some (tek_types to_float)) ([str "WFMOUTPRE"; node], v) ([str "WFMOUTPRE"; ck], w).
Proof.
  intros N F C ->. exists (Some (TCall f)). split; [|exact C]. cbn [fst snd].
  eapply (res_known _ (str "WFMOUTPRE") (str "WFMOutpre")).
  - exists [(str "TRIGger", trigger_types to_float)], (str "WFMOutpre|WFMInpre|WFMPre"), [], [Word (str "WFMOutpre"); Word (str "WFMInpre"); Word (str "WFMPre")].
    repeat split.
    + repeat constructor.
    + exists [], [str "WFMInpre"; str "WFMPre"]. repeat split; [|intros x []]. apply spelled; [vm_compute; discriminate|reflexivity].
    + intros kd' t' [E|[]]. injection E as <- <-. exists [Word (str "TRIGger")]. repeat split; [discriminate|repeat constructor|].
      intros x [<-|[]]. apply not_spelled; [vm_compute; discriminate|reflexivity].
  - eapply (res_known _ node kw); [|constructor]. apply selects_words; [exact N| |exact F].
    repeat (constructor; [repeat constructor|]). constructor.
Qed.

(** All spellings of a keyword; [run]: inside a run of lower case letters that
    is kept or dropped. *)
Fixpoint spellings (run : option bool) (kw : pystr) : list pystr :=
  match kw with
  | [] => [[]]
  | c :: kw' =>
      if is_lower c then
        match run with
        | Some true => map (cons (upper_char c)) (spellings (Some true) kw')
        | Some false => spellings (Some false) kw'
        | None => map (cons (upper_char c)) (spellings (Some true) kw') ++ spellings (Some false) kw'
        end
      else map (cons c) (spellings None kw')
  end.
Lemma spellings_head kw r : no_lower_head kw -> spellings r kw = spellings None kw.
Proof. destruct kw as [|c kw]; [reflexivity|]. cbn [no_lower_head spellings]. intros ->. reflexivity. Qed.
Lemma spellings_run run kw k : all_lower run -> no_lower_head kw -> In k (spellings None kw) ->
  In (upper run ++ k) (spellings (Some true) (run ++ kw)) /\ In k (spellings (Some false) (run ++ kw)).
Proof.
  intros L N I. induction run as [|c run IH]; [cbn [upper map app]; rewrite (spellings_head kw (Some true) N), (spellings_head kw (Some false) N); split; exact I|].
  inversion_clear L as [|? ? L1 L2]. destruct (IH L2) as [I1 I2]. cbn [app spellings upper map]. rewrite L1. split; [|exact I2].
  apply (in_map (cons (upper_char c))) in I1. exact I1.
Qed.
Lemma spelling_in kw k : spelling kw k -> In k (spellings None kw).
Proof.
  induction 1 as [|c kw k L _ IH|run kw k NE L N _ IH|run kw k NE L N _ IH].
  - left. reflexivity.
  - cbn [spellings]. rewrite L. apply in_map. exact IH.
  - destruct run as [|c run]; [congruence|]. inversion_clear L as [|? ? L1 L2]. destruct (spellings_run run kw k L2 N IH) as [I _].
    cbn [app spellings upper map]. rewrite L1. apply in_or_app. left. apply (in_map (cons (upper_char c))) in I. exact I.
  - destruct run as [|c run]; [congruence|]. inversion_clear L as [|? ? L1 L2]. destruct (spellings_run run kw k L2 N IH) as [_ I].
    cbn [app spellings]. rewrite L1. apply in_or_app. right. exact I.
Qed.
Definition call_of {A} `{Num A} (to_float : pystr -> result A) (k : kind) : pystr -> result (value A) :=
  match k with Integer => as_int | Real => as_float to_float | Word_ => as_upper | Quoted => as_quoted end.
Lemma lstrip_repeat c i s : lstrip_of c (repeat c i ++ s) = lstrip_of c s.
Proof. induction i as [|i IH]; [reflexivity|]. cbn [repeat app lstrip_of]. rewrite Z.eqb_refl. exact IH. Qed.
Lemma rev_repeat {X} (c : X) i : rev (repeat c i) = repeat c i.
Proof.
  induction i as [|i IH]; [reflexivity|]. cbn [repeat rev]. rewrite IH. clear. induction i as [|i IH]; [reflexivity|]. cbn [repeat app]. f_equal. exact IH.
Qed.
Lemma strip_quotes c i j t : (forall u, t <> c :: u) -> (forall u, t <> u ++ [c]) -> strip_of c (repeat c i ++ t ++ repeat c j) = t.
Proof.
  intros N1 N2. unfold strip_of. rewrite lstrip_repeat. destruct t as [|x t].
  - cbn [app]. rewrite <- (app_nil_r (repeat c j)), lstrip_repeat. reflexivity.
  - assert (E : lstrip_of c ((x :: t) ++ repeat c j) = (x :: t) ++ repeat c j) by (apply lstrip_of_id; intros ->; eapply N1; reflexivity).
    rewrite E, rev_app_distr, rev_repeat, lstrip_repeat. change (strip_of c (x :: t) = x :: t) || idtac.
    pose proof (strip_of_id c (x :: t) N1 N2) as S. unfold strip_of in S.
    assert (E2 : lstrip_of c (x :: t) = x :: t) by (apply lstrip_of_id; intros ->; eapply N1; reflexivity). rewrite E2 in S. exact S.
Qed.
