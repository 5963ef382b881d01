From Coq Require Import String ZArith Bool List Lia.
Import ListNotations.
From Verif Require Import Base Num PyStr PyStrProofs ScpiProofs MaskProofs EyeModel TekModel TekSpec TekProofs WfmModel WfmSpec.
Local Open Scope Z_scope.

Lemma le_unsigned bs : unsigned_le bs = le bs. Proof. induction bs; cbn [unsigned_le le fold_right]; [reflexivity|]. rewrite IHbs. reflexivity. Qed.
Lemma slice_at data off n : 0 <= off -> 0 <= n -> slice data off (off + n) = at_ data off n.
Proof. intros O N. unfold slice, at_. rewrite (proj2 (Z.ltb_ge _ _)) by lia. replace (off + n - off) with n by lia. reflexivity. Qed.
Lemma unpack_ok data n off : 0 <= off -> 0 <= n -> off + n <= Z.of_nat (length data) -> unpack data n off = Ok (at_ data off n).
Proof. intros O N L. unfold unpack. rewrite (proj2 (Z.leb_le _ _)) by lia. rewrite slice_at by lia. reflexivity. Qed.
Lemma unpack_inv data n off b : 0 <= off -> 0 <= n -> unpack data n off = Ok b -> b = at_ data off n.
Proof. intros O N E. unfold unpack in E. destruct (_ <=? _); [|discriminate]. rewrite slice_at in E by lia. injection E as <-. reflexivity. Qed.
Lemma unpack_u_inv data n off u : 0 <= off -> 0 <= n -> unpack_u data n off = Ok u -> u = number data off n.
Proof.
  intros O N E. unfold unpack_u in E. destruct (unpack data n off) as [b|] eqn:U; cbn [bind] in E; [|discriminate].
  injection E as <-. rewrite le_unsigned. apply unpack_inv in U; try assumption. rewrite U. reflexivity.
Qed.
Lemma unpack_u_ok data n off : 0 <= off -> 0 <= n -> off + n <= Z.of_nat (length data) -> unpack_u data n off = Ok (number data off n).
Proof. intros. unfold unpack_u. rewrite unpack_ok by assumption. cbn [bind]. rewrite le_unsigned. reflexivity. Qed.
Lemma check_ok b u : check b = Ok u -> b = true. Proof. destruct b; [reflexivity|discriminate]. Qed.
Lemma fold_sum l : forall a, fold_left Z.add l a = a + sum l.
Proof. induction l as [|x l IH]; intro a; cbn [fold_left sum fold_right]; [lia|]. rewrite IH. unfold sum. lia. Qed.

Section P.
Context {A : Type} `{NA : Num A}.
Variable double : list Z -> A.
Variable utf8 : list Z -> option pystr.
Context {T : Type}.
Variable timestamp : Z -> A -> result T.
Variable uniform : Z -> Z -> list A.
Notation parse := (parse_wfm_file double utf8 timestamp uniform).

Lemma le_nonneg bs : is_bytes bs -> 0 <= le bs.
Proof. induction 1; cbn [le fold_right]; [lia|]. unfold le in IHForall. lia. Qed.
Lemma at_bytes data off n : is_bytes data -> is_bytes (at_ data off n).
Proof.
  intro B. unfold at_. apply Forall_forall. intros x I. unfold is_bytes in B. rewrite Forall_forall in B. apply B.
  rewrite <- (firstn_skipn (Z.to_nat off) data). apply in_or_app. right. rewrite <- (firstn_skipn (Z.to_nat n) (skipn _ _)). apply in_or_app. left. exact I.
Qed.
Lemma number_nonneg data off n : is_bytes data -> 0 <= number data off n.
Proof. intro B. apply le_nonneg, at_bytes, B. Qed.
Lemma expected_pos data : is_bytes data -> 846 <= expected_length data.
Proof. intro B. unfold expected_length. pose proof (number_nonneg data 72 4 B). pose proof (number_nonneg data 834 4 B). nia. Qed.

Lemma accepted data raw noise pp r : is_bytes data -> parse data raw noise pp = Ok r ->
  838 <= Z.of_nat (length data) /\ firstn 2 data = [15; 15] /\ expected_length data <= Z.of_nat (length data) /\
  number data (expected_length data - 8) 8 = sum (firstn (Z.to_nat (expected_length data - 8)) data).
Proof.
  intros B E. pose proof (expected_pos data B) as EP. unfold parse_wfm_file in E. cbv zeta in E. unbind E.
  destruct x29 as [[[signed size] min_] max_]. unbind E.
  repeat match goal with H : unpack_u data _ _ = Ok ?x |- _ => apply unpack_u_inv in H; [subst x|lia|lia] end.
  repeat match goal with H : check _ = Ok _ |- _ => apply check_ok in H end.
  match goal with H : (838 <=? _) = true |- _ => apply Z.leb_le in H; rename H into L1 end.
  match goal with H : str_eqb (firstn 2 data) _ = true |- _ => apply str_eqb_eq in H; rename H into M1 end.
  match goal with H : (838 + _ + _ + 8 <=? _) = true |- _ => apply Z.leb_le in H; rename H into L2 end.
  change (838 + 54 * number data 72 4 + number data 834 4 * (number data 72 4 + 1) + 8) with (expected_length data) in * .
  match goal with H : unpack_u data 8 _ = Ok _ |- _ => apply unpack_u_inv in H; [|lia|lia]; rename H into C1 end.
  match goal with H : (fold_left Z.add _ 0 =? _) = true |- _ => apply Z.eqb_eq in H; rename H into C2 end.
  repeat split; try assumption. rewrite <- C1, <- C2, fold_sum. cbn [Z.add]. f_equal.
  replace (expected_length data - 8) with (0 + (expected_length data - 8)) at 1 by lia. rewrite slice_at by lia. reflexivity.
Qed.

(** The kinds of files that are accepted. *)
Lemma format_in code f : format_of code = Some f -> let '(signed, size, min_, max_) := f in In (code, (signed, size)) sample_types.
Proof.
  unfold format_of, sample_types. intro E.
  repeat match type of E with (if ?c =? ?k then _ else _) = _ => destruct (Z.eqb_spec c k); [injection E as <-; subst; cbn; tauto|] end. discriminate.
Qed.
Lemma accepted_format data raw noise pp r : is_bytes data -> parse data raw noise pp = Ok r ->
  parse_int (at_ data 7 3) = Some 3 /\ number data 114 4 = 1 /\ number data 118 4 = 1 /\ number data 122 4 = 2 /\ number data 244 4 = 0 /\
  exists signed size, In (number data 240 4, (signed, size)) sample_types /\ unpack_s data 1 15 = Ok size.
Proof.
  intros B E. unfold parse_wfm_file in E. cbv zeta in E. unbind E.
  destruct x29 as [[[signed size] min_] max_]. unbind E.
  repeat match goal with H : unpack_u data _ _ = Ok ?x |- _ => apply unpack_u_inv in H; [subst x|lia|lia] end.
  repeat match goal with H : check _ = Ok _ |- _ => apply check_ok in H end.
  match goal with H : (size * 8 =? _) = true |- _ => apply Z.eqb_eq in H; rename H into BP end.
  match goal with H : check_some (format_of _) = Ok _ |- _ => unfold check_some in H; destruct (format_of _) eqn:FM; [injection H as ->|discriminate] end.
  apply format_in in FM.
  match goal with H : unpack data 3 7 = Ok _ |- _ => apply unpack_inv in H; [|lia|lia]; subst end.
  match goal with H : check_some (parse_int _) = Ok _ |- _ => unfold check_some in H; destruct (parse_int _) eqn:PI; [injection H as ->|discriminate] end.
  repeat match goal with H : (_ && _) = true |- _ => apply andb_prop in H; destruct H end.
  repeat match goal with H : (_ =? _) = true |- _ => apply Z.eqb_eq in H end.
  repeat split; try assumption; try congruence.
  exists signed, size. split; [exact FM|]. assert (x4 = size) by lia. subst x4. assumption.
Qed.

(** Fields under a change. *)
Lemma at_other l1 b b' l2 off n : 0 <= off -> 0 <= n -> Z.of_nat (length l1) < off \/ off + n <= Z.of_nat (length l1) ->
  at_ (l1 ++ b :: l2) off n = at_ (l1 ++ b' :: l2) off n.
Proof.
  intros O N [L|L]; unfold at_; rewrite !skipn_app.
  - rewrite skipn_all2 by lia. destruct (Z.to_nat off - length l1)%nat eqn:E; [lia|]. reflexivity.
  - rewrite !firstn_app. replace (Z.to_nat n - length (skipn (Z.to_nat off) l1))%nat with 0%nat by (rewrite skipn_length; lia). reflexivity.
Qed.
Lemma at_inside l1 b l2 off n : 0 <= off -> off <= Z.of_nat (length l1) < off + n ->
  at_ (l1 ++ b :: l2) off n = skipn (Z.to_nat off) l1 ++ b :: firstn (Z.to_nat (off + n - Z.of_nat (length l1) - 1)) l2.
Proof.
  intros O L. unfold at_. rewrite skipn_app. replace (Z.to_nat off - length l1)%nat with 0%nat by lia. cbn [skipn].
  rewrite firstn_app, skipn_length, firstn_all2 by (rewrite skipn_length; lia). f_equal.
  replace (Z.to_nat n - (length l1 - Z.to_nat off))%nat with (S (Z.to_nat (off + n - Z.of_nat (length l1) - 1))) by lia. reflexivity.
Qed.
Lemma le_app a c : le (a ++ c) = le a + 256 ^ Z.of_nat (length a) * le c.
Proof.
  induction a as [|x a IH]; [cbn [app le fold_right length]; change (256 ^ Z.of_nat 0) with 1; unfold le; cbn [fold_right]; lia|].
  change (le ((x :: a) ++ c)) with (x + 256 * le (a ++ c)). change (le (x :: a)) with (x + 256 * le a). rewrite IH. cbn [length].
  rewrite Nat2Z.inj_succ, Z.pow_succ_r by lia. ring.
Qed.
Lemma sum_app a c : sum (a ++ c) = sum a + sum c.
Proof. induction a as [|x a IH]; [reflexivity|]. change (sum ((x :: a) ++ c)) with (x + sum (a ++ c)). change (sum (x :: a)) with (x + sum a). lia. Qed.
Lemma single_byte l1 b b' l2 : b <> b' -> is_bytes (l1 ++ b :: l2) -> is_bytes (l1 ++ b' :: l2) ->
  let data := l1 ++ b :: l2 in let data' := l1 ++ b' :: l2 in
  ~ length_field (Z.of_nat (length l1)) -> Z.of_nat (length l1) < expected_length data ->
  expected_length data' = expected_length data /\
  (number data (expected_length data - 8) 8 = sum (firstn (Z.to_nat (expected_length data - 8)) data) ->
   number data' (expected_length data - 8) 8 = sum (firstn (Z.to_nat (expected_length data - 8)) data') -> False).
Proof.
  intros N B B' data data' LF L. pose proof (expected_pos data B) as EP. unfold length_field in LF.
  assert (E : expected_length data' = expected_length data).
  { unfold expected_length, number, data, data'. rewrite (at_other l1 b' b l2 72 4), (at_other l1 b' b l2 834 4) by lia. reflexivity. }
  split; [exact E|]. set (K := expected_length data - 8) in * . unfold number.
  change (firstn (Z.to_nat K) data) with (at_ data 0 K). change (firstn (Z.to_nat K) data') with (at_ data' 0 K). unfold data, data' in * .
  destruct (Z_lt_le_dec (Z.of_nat (length l1)) K) as [X|X].
  - rewrite (at_other l1 b' b l2 K 8) by lia. intros -> . rewrite !(at_inside _ _ _ 0 K) by lia. rewrite !sum_app.
    change (sum (?x :: ?l)) with (x + sum l). cbn [sum fold_right]. fold sum. lia.
  - rewrite (at_other l1 b' b l2 0 K) by lia. intros <- . rewrite !(at_inside _ _ _ K 8) by (unfold K in *; lia). rewrite !le_app.
    set (p := 256 ^ _). assert (P : 0 < p) by (apply Z.pow_pos_nonneg; lia).
    set (r := firstn _ l2). change (le (b :: r)) with (b + 256 * le r). change (le (b' :: r)) with (b' + 256 * le r). nia.
Qed.
Lemma at_firstn data m off n : 0 <= off -> 0 <= n -> off + n <= Z.of_nat m -> at_ (firstn m data) off n = at_ data off n.
Proof.
  intros O N L. unfold at_. rewrite skipn_firstn_comm, firstn_firstn. f_equal. lia.
Qed.
Lemma is_bytes_firstn data m : is_bytes data -> is_bytes (firstn m data).
Proof. intro B. unfold is_bytes in * . rewrite <- (firstn_skipn m data) in B. apply Forall_app in B. apply B. Qed.

(** Lengths of the axes. *)
Lemma chunks_length size n : (1 <= size)%nat -> forall fuel bs, length bs = (n * size)%nat -> (n <= fuel)%nat -> length (chunks size fuel bs) = n.
Proof.
  intro S. induction n as [|n IH]; intros fuel bs L F.
  - destruct bs; [|cbn in L; lia]. destruct fuel; reflexivity.
  - destruct fuel as [|fuel]; [lia|]. destruct bs as [|x bs]; [cbn in L; lia|]. cbn [chunks length]. f_equal. apply IH; [|lia].
    rewrite skipn_length, L. lia.
Qed.
Lemma frombuffer_at_length signed size off count data codes : 0 <= count -> frombuffer_at signed size off count data = Ok codes ->
  length codes = Z.to_nat count.
Proof.
  intros C E. unfold frombuffer_at in E. rewrite (proj2 (Z.ltb_ge _ _)) in E by lia. destruct (_ <? _) eqn:L; [discriminate|]. apply Z.ltb_ge in L.
  unfold frombuffer in E. destruct (_ || _ || _ || _) eqn:S; [|discriminate].
  assert (SZ : 1 <= size) by (repeat rewrite orb_true_iff in S; rewrite !Z.eqb_eq in S; lia).
  destruct (_ =? 0); [|discriminate]. injection E as <-. rewrite map_length. apply chunks_length; [lia| |].
  - rewrite firstn_length_le by lia. nia.
  - rewrite firstn_length_le by lia. nia.
Qed.
Lemma parts_length {X} n len : forall l : list X, length (parts n len l) = n.
Proof. induction n as [|n IH]; intro l; cbn [parts length]; [reflexivity|]. f_equal. apply IH. Qed.
Lemma time_axis_length n post tt sc off : length (time_axis n post tt sc off : list A) = Z.to_nat (n + post - - post).
Proof. unfold time_axis, zrange_from. rewrite !map_length, seq_length. reflexivity. Qed.
Lemma np_rows_first t y (fs fs' : list (list A * list A)) : np_rows ((t, y) :: fs) = Ok fs' -> length y = length t.
Proof.
  unfold np_rows. cbn [forallb fst snd]. rewrite Nat.eqb_refl. destruct (Nat.eqb (length y) (length t)) eqn:E; [|discriminate]. intros _. apply Nat.eqb_eq, E.
Qed.
Lemma format_size code signed size lo hi : format_of code = Some (signed, size, lo, hi) -> size = 1 \/ size = 2 \/ size = 4 \/ size = 8.
Proof. unfold format_of. repeat (destruct (_ =? _); [intros [= <- <- <- <-]; lia|]). discriminate. Qed.
Lemma charges data raw noise pp r : is_bytes data -> parse data raw noise pp = Ok r ->
  exists size, 1 <= size /\
  let pre := (number data 822 4 - number data 818 4) / size in
  let count := (number data 826 4 - number data 822 4) / size in
  let post := (number data 830 4 - number data 826 4) / size in
  number data 15 1 = size /\ (0 <= pre -> 0 <= count -> 0 <= post -> pre = post).
Proof.
  intros B E. pose proof (number_nonneg data 72 4 B) as FN. pose proof (number_nonneg data 15 1 B) as BN. unfold parse_wfm_file in E. cbv zeta in E. unbind E.
  destruct x29 as [[[signed size] min_] max_]. unbind E.
  repeat match goal with H : unpack_u data _ _ = Ok ?x |- _ => apply unpack_u_inv in H; [subst x|lia|lia] end.
  repeat match goal with H : check _ = Ok _ |- _ => apply check_ok in H end.
  match goal with H : (size * 8 =? _) = true |- _ => apply Z.eqb_eq in H; rename H into BP end.
  match goal with H : check_some (format_of _) = Ok _ |- _ => unfold check_some in H; destruct (format_of _) eqn:FM; [injection H as ->|discriminate] end.
  apply format_size in FM. assert (x4 = size) by lia. subst x4.
  assert (S1 : number data 15 1 = size).
  { match goal with H : unpack_s data 1 15 = Ok size |- _ => unfold unpack_s in H; destruct (unpack data 1 15) as [bb|] eqn:U; cbn [bind] in H; [|discriminate]; injection H as H; apply unpack_inv in U; [|lia|lia]; subst bb; rename H into SG end.
    rewrite le_unsigned in SG. change (le (at_ data 15 1)) with (number data 15 1) in SG. unfold signed_of in SG. change (2 ^ (8 * 1 - 1)) with 128 in SG. change (2 ^ (8 * 1)) with 256 in SG.
    assert (UB : number data 15 1 < 256).
    { unfold number. pose proof (at_bytes data 15 1 B) as AB. assert (LL : (length (at_ data 15 1) <= 1)%nat) by (unfold at_; rewrite firstn_length; lia).
      destruct (at_ data 15 1) as [|z [|? ?]]; cbn in LL |- * ; [lia|inversion AB; lia|lia]. }
    destruct (_ <? 128); lia. }
  exists size. split; [lia|]. cbv zeta. split; [exact S1|]. intros P C Q.
  set (pre := (number data 822 4 - number data 818 4) / size) in * . set (count := (number data 826 4 - number data 822 4) / size) in * .
  set (post := (number data 830 4 - number data 826 4) / size) in * . set (ff := number data 72 4) in * .
  match goal with H : frombuffer_at _ _ _ _ _ = Ok ?c |- _ => apply frombuffer_at_length in H; [|nia]; rename H into CL; set (codes := c) in * end.
  match goal with H : (if noise then _ else _) = Ok ?y |- _ => set (y0 := y) in *; assert (YL : length y0 = length codes); [|clear H] end.
  { destruct noise.
    - match goal with H : dither_codes _ _ _ _ _ _ = Ok _ |- _ => unfold dither_codes in H; destruct (_ <? 0); [discriminate|]; destruct (Nat.eqb _ _) eqn:NE; [|discriminate]; injection H as <- end.
      apply Nat.eqb_eq in NE. rewrite map_length, combine_length, NE. lia.
    - match goal with H : Ok (map _ _) = Ok _ |- _ => injection H as <- end. apply map_length. }
  match type of E with context [if raw then y0 else ?m] => set (y1 := if raw then y0 else m) in * ; assert (YL1 : length y1 = length codes) end.
  { unfold y1. destruct raw; [exact YL|]. rewrite map_length. exact YL. }
  destruct (ff + 1 =? 1) eqn:F1.
  - unbind E. match goal with H : np_rows _ = Ok _ |- _ => apply np_rows_first in H; rewrite time_axis_length, YL1, CL in H end. nia.
  - apply Z.eqb_neq in F1. unbind E.
    match goal with H : np_split _ _ = Ok ?ys |- _ => unfold np_split in H; match type of H with (if ?b then _ else _) = _ => destruct b end; [|discriminate]; injection H as <- end.
    destruct (Z.to_nat (ff + 1)) as [|k] eqn:FK; [lia|]. cbn [parts combine] in * .
    match goal with H : np_rows _ = Ok _ |- _ => apply np_rows_first in H; rewrite time_axis_length in H; rename H into R end.
    rewrite YL1, CL in R. rewrite Z2Nat.id in R by nia. rewrite Z.div_mul in R by lia. rewrite firstn_length_le in R by (rewrite YL1, CL; nia). lia.
Qed.

(** ** Decoding *)
Lemma until_nul_text name pad : ~ In 0 name -> (pad = [] \/ exists p, pad = 0 :: p) -> until_nul (name ++ pad) = name.
Proof.
  intros N P. induction name as [|x name IH]; cbn [app until_nul].
  - destruct P as [-> | (p & ->)]; reflexivity.
  - rewrite (proj2 (Z.eqb_neq x 0)) by (intro X; apply N; left; exact X). f_equal. apply IH. intro I. apply N. right. exact I.
Qed.
Lemma unpack_text_ok data off t : 0 <= off -> off + 20 <= Z.of_nat (length data) -> text_at utf8 data off t -> unpack_text utf8 data off = Ok t.
Proof.
  intros O L (name & pad & E & N & P & U). unfold unpack_text. rewrite unpack_ok by lia. cbn [bind]. rewrite E, until_nul_text by assumption. rewrite U. reflexivity.
Qed.
Lemma unpack_d_ok data off v : 0 <= off -> off + 8 <= Z.of_nat (length data) -> double_at double data off v -> unpack_d double data off = Ok v.
Proof. intros O L D. unfold unpack_d. rewrite unpack_ok by lia. cbn [bind]. rewrite <- D. reflexivity. Qed.
Lemma unpack_s4_ok data off : 0 <= off -> off + 4 <= Z.of_nat (length data) -> unpack_s data 4 off = Ok (signed4 (number data off 4)).
Proof. intros O L. unfold unpack_s. rewrite unpack_ok by lia. cbn [bind]. rewrite le_unsigned. reflexivity. Qed.
Lemma frombuffer_wire signed size codes : size = 1 \/ size = 2 \/ size = 4 \/ size = 8 -> Forall (fits signed size) codes ->
  frombuffer false signed size (payload false size codes) = Ok codes.
Proof.
  intros S F. unfold frombuffer.
  assert (X : (size =? 1) || (size =? 2) || (size =? 4) || (size =? 8) = true) by (destruct S as [-> | [-> | [-> | ->]]]; reflexivity). rewrite X.
  rewrite payload_length by lia. rewrite Z.mod_mul by lia. change (0 =? 0) with true. cbv iota.
  rewrite chunks_payload; [|lia|]. 2:{ pose proof (payload_length false size codes ltac:(lia)). nia. }
  f_equal. rewrite map_map. rewrite <- (map_id codes) at 2. apply map_ext_in. intros c I. apply decode_wire; [lia|]. rewrite Forall_forall in F. apply F, I.
Qed.
Lemma frombuffer_at_ok signed size off codes data : size = 1 \/ size = 2 \/ size = 4 \/ size = 8 -> Forall (fits signed size) codes -> 0 <= off ->
  at_ data off (Z.of_nat (length (payload false size codes))) = payload false size codes ->
  frombuffer_at signed size off (Z.of_nat (length codes)) data = Ok codes.
Proof.
  intros S F O E. pose proof (payload_length false size codes ltac:(lia)) as PL. unfold frombuffer_at. rewrite (proj2 (Z.ltb_ge _ _)) by lia.
  unfold at_ in E. rewrite Nat2Z.id in E. pose proof (f_equal (@length Z) E) as LE. rewrite firstn_length in LE.
  rewrite (proj2 (Z.ltb_ge _ _)) by lia. rewrite <- PL, Nat2Z.id, E. apply frombuffer_wire; assumption.
Qed.
Lemma parts_concat {X} len (l : list (list X)) : Forall (fun f => length f = len) l -> parts (length l) len (concat l) = l.
Proof.
  induction 1 as [|f l L F IH]; [reflexivity|]. cbn [length parts concat]. rewrite firstn_app, skipn_app, L, Nat.sub_diag. cbn [firstn skipn].
  rewrite firstn_all2, skipn_all2 by lia. cbn [app]. rewrite app_nil_r, IH. reflexivity.
Qed.
Lemma concat_length {X} len (l : list (list X)) : Forall (fun f => length f = len) l -> length (concat l) = (length l * len)%nat.
Proof. induction 1 as [|f l L F IH]; [reflexivity|]. cbn [concat length]. rewrite app_length, L, IH. lia. Qed.
Lemma mapM_nth {X Y} (f : X -> result Y) l : forall ys, length ys = length l ->
  (forall i x y, nth_error l i = Some x -> nth_error ys i = Some y -> f x = Ok y) -> mapM f l = Ok ys.
Proof.
  induction l as [|x l IH]; intros [|y ys] L E; try discriminate; [reflexivity|]. cbn [mapM]. rewrite (E 0%nat x y eq_refl eq_refl).
  rewrite (IH ys); [reflexivity|injection L as L; exact L|]. intros i x' y' N1 N2. exact (E (S i) x' y' N1 N2).
Qed.
Lemma np_rows_ok len (fs : list (list A * list A)) : Forall (fun f => length (fst f) = len /\ length (snd f) = len) fs -> np_rows fs = Ok fs.
Proof.
  intro F. destruct fs as [|f fs]; [reflexivity|]. unfold np_rows.
  assert (X : forallb (fun g => Nat.eqb (length (fst g)) (length (fst f)) && Nat.eqb (length (snd g)) (length (fst f))) (f :: fs) = true).
  { apply forallb_forall. intros g I. rewrite Forall_forall in F. destruct (F f (or_introl eq_refl)) as [L1 _]. destruct (F g I) as [L2 L3].
    rewrite L1, L2, L3, Nat.eqb_refl. reflexivity. }
  rewrite X. reflexivity.
Qed.
Lemma sample_format code signed size : In (code, (signed, size)) sample_types ->
  format_of code = Some (signed, size, lowest signed size, highest signed size) /\ (size = 1 \/ size = 2 \/ size = 4 \/ size = 8).
Proof.
  intro I. cbn [sample_types In] in I. repeat (destruct I as [E|I]; [injection E as <- <- <-; split; [reflexivity|lia]|]). destruct I.
Qed.
Lemma pyslice_mid {X} (l : list X) pre count : (pre + count <= length l)%nat ->
  pyslice l (Z.of_nat pre) (Z.of_nat pre + Z.of_nat count) = firstn count (skipn pre l).
Proof.
  intro L. unfold pyslice, slice_index. rewrite !(proj2 (Z.ltb_ge _ _)) by lia. rewrite !Z.min_l by lia. f_equal; [lia|]. f_equal. lia.
Qed.

Section Decode.
Variable c : contents A T.
Let all := (c_pre c + c_count c + c_pre c)%nat.
Let lo := lowest (c_signed c) (c_size c).
Let hi := highest (c_signed c) (c_size c).
Let codes := concat (c_frames c).
Local Open Scope num_scope.
Definition w_scale (w : A) : A := w *. c_yscale c +. c_yoff c.
Definition w_axis (tt_ : A) : list A := time_axis (Z.of_nat (c_count c)) (Z.of_nat (c_pre c)) tt_ (c_xscale c) (c_xoff c).
Definition w_cut (f : list A * list A) : list A * list A := (firstn (c_count c) (skipn (c_pre c) (fst f)), firstn (c_count c) (skipn (c_pre c) (snd f))).
Definition recording_of (raw pp : bool) (y : list A) : recording A T :=
  let rows := combine (map w_axis (c_triggers c)) (parts (length (c_frames c)) all (if raw then y else map w_scale y)) in
  Recording (if pp then rows else map w_cut rows)
    (str "Label: " ++ c_label c ++ str ", " ++ str_int (if pp then Z.of_nat all else Z.of_nat (c_count c)) ++ str " points, "
       ++ str_int (Z.of_nat (length (c_frames c))) ++ str " frame" ++ (if (1 <? Z.of_nat (length (c_frames c)))%Z then str "s" else []))
    (c_xunit c) (if raw then str "ADC Counts" else c_yunit c) (c_xscale c) (if raw then nofZ 1 else c_yscale c)
    (if raw then nofZ lo else w_scale (nofZ lo)) (if raw then nofZ hi else w_scale (nofZ hi))
    (existsb (fun x => hi <=? x)%Z codes) (existsb (fun x => x <=? lo)%Z codes) (c_stamps c).
Local Close Scope num_scope.
Lemma parts_len {X} n len : forall l : list X, length l = (n * len)%nat -> Forall (fun p => length p = len) (parts n len l).
Proof.
  induction n as [|n IH]; intros l L; cbn [parts]; [constructor|]. constructor; [rewrite firstn_length_le; lia|]. apply IH. rewrite skipn_length. lia.
Qed.
Lemma decoded data (raw noise pp : bool) (y : list A) : wfm_file double utf8 timestamp c data ->
  (if noise then dither_codes uniform (c_size c) lo hi (Z.of_nat (length codes)) codes else Ok (map nofZ codes)) = Ok y -> length y = length codes ->
  parse data raw noise pp = Ok (recording_of raw pp y).
Proof.
  intros (TY & NE & FR & LT & LS & LD & M0 & V & BP & TL & FF & D1 & D2 & D3 & YS & YO & YU & CD & ST & XS & XO & XU & TR & SM & O1 & O2 & O3 & O4 & O5 & EL & PL & CS) NO YL.
  destruct (sample_format _ _ _ TY) as [FM SZ].
  assert (FL : Forall (fun f => length f = all) (c_frames c)) by (eapply Forall_impl; [|exact FR]; intros f [X _]; exact X).
  assert (FC : Forall (fits (c_signed c) (c_size c)) codes).
  { apply Forall_concat. eapply Forall_impl; [|exact FR]. intros f [_ X]. exact X. }
  assert (CL : length codes = (length (c_frames c) * all)%nat) by (apply concat_length, FL).
  assert (NF : (1 <= length (c_frames c))%nat) by (clear - NE; destruct (c_frames c); [congruence|cbn; lia]).
  destruct (c_triggers c) as [|tt0 tts] eqn:ET; [cbn in LT; lia|]. destruct (c_stamps c) as [|ts0 tss] eqn:ES; [cbn in LS; lia|].
  cbn [length] in LT, LS.
  unfold parse_wfm_file. cbv zeta. rewrite (proj2 (Z.leb_le _ _)) by lia. cbn [check bind].
  change (firstn 2 data) with (at_ data 0 2). rewrite M0. change (str_eqb [15; 15] [15; 15]) with true. cbn [check bind].
  rewrite (unpack_ok data 3 7) by lia. rewrite V. cbn [bind]. change (check_some (parse_int (str "003"))) with (Ok 3). cbn [bind]. change (3 =? 3) with true. cbn [check bind].
  assert (B1 : unpack_s data 1 15 = Ok (c_size c)).
  { unfold unpack_s. rewrite (unpack_ok data 1 15) by lia. cbn [bind]. rewrite le_unsigned. change (le (at_ data 15 1)) with (number data 15 1). rewrite BP.
    unfold signed_of. change (2 ^ (8 * 1 - 1)) with 128. rewrite (proj2 (Z.ltb_lt _ _)) by lia. reflexivity. }
  rewrite B1. cbn [bind]. rewrite (unpack_text_ok data 40 (c_label c) ltac:(lia) ltac:(lia) TL). cbn [bind].
  rewrite (unpack_u_ok data 4 72), (unpack_u_ok data 4 114), (unpack_u_ok data 4 118), (unpack_u_ok data 4 122) by lia. cbn [bind].
  rewrite D1, D2, D3. change (_ && _ && _) with true. cbn [check bind].
  rewrite (unpack_d_ok data 168 (c_yscale c) ltac:(lia) ltac:(lia) YS), (unpack_d_ok data 176 (c_yoff c) ltac:(lia) ltac:(lia) YO), (unpack_text_ok data 188 (c_yunit c) ltac:(lia) ltac:(lia) YU). cbn [bind].
  rewrite (unpack_u_ok data 4 240), (unpack_u_ok data 4 244) by lia. cbn [bind]. rewrite ST. change (0 =? 0) with true. cbn [check bind].
  rewrite (unpack_d_ok data 488 (c_xscale c) ltac:(lia) ltac:(lia) XS), (unpack_d_ok data 496 (c_xoff c) ltac:(lia) ltac:(lia) XO), (unpack_text_ok data 508 (c_xunit c) ltac:(lia) ltac:(lia) XU). cbn [bind].
  rewrite (unpack_d_ok data 788 tt0 ltac:(lia) ltac:(lia) (TR 0%nat tt0 eq_refl)).
  rewrite (unpack_d_ok data 796 (double (at_ data 796 8)) ltac:(lia) ltac:(lia) eq_refl). cbn [bind].
  rewrite (unpack_s4_ok data 804) by lia. cbn [bind]. rewrite (SM 0%nat ts0 eq_refl : timestamp (signed4 (number data 804 4)) (double (at_ data 796 8)) = Ok ts0). cbn [bind].
  rewrite (unpack_u_ok data 4 818), (unpack_u_ok data 4 822), (unpack_u_ok data 4 826), (unpack_u_ok data 4 830), (unpack_u_ok data 4 834) by lia. cbn [bind].
  rewrite CD, FM. cbn [check_some bind]. rewrite Z.eqb_refl. cbn [check bind].
  change (838 + 54 * number data 72 4 + number data 834 4 * (number data 72 4 + 1) + 8) with (expected_length data).
  rewrite (proj2 (Z.leb_le _ _) EL). cbn [check bind].
  assert (EP : 846 <= expected_length data).
  { unfold expected_length. rewrite FF, O5. nia. }
  rewrite (unpack_u_ok data 8 (expected_length data - 8)) by lia. cbn [bind].
  assert (SL : slice data 0 (expected_length data - 8) = firstn (Z.to_nat (expected_length data - 8)) data).
  { replace (expected_length data - 8) with (0 + (expected_length data - 8)) at 1 by lia. rewrite slice_at by lia. reflexivity. }
  rewrite SL, CS, fold_sum, Z.add_0_l, Z.eqb_refl. cbn [check bind].
  rewrite O1, O2, O3, O4, FF. rewrite Z.sub_0_r. rewrite Z.div_mul by lia.
  replace (Z.of_nat (c_pre c + c_count c) * c_size c - Z.of_nat (c_pre c) * c_size c) with (Z.of_nat (c_count c) * c_size c) by nia.
  rewrite Z.div_mul by lia.
  replace (Z.of_nat (c_pre c + c_count c + c_pre c) * c_size c - Z.of_nat (c_pre c + c_count c) * c_size c) with (Z.of_nat (c_pre c) * c_size c) by nia.
  rewrite Z.div_mul by lia.
  replace (Z.of_nat (length (c_frames c)) - 1 + 1) with (Z.of_nat (length (c_frames c))) by lia.
  replace ((Z.of_nat (c_pre c) + Z.of_nat (c_count c) + Z.of_nat (c_pre c)) * Z.of_nat (length (c_frames c))) with (Z.of_nat (length codes)) by (rewrite CL; unfold all; nia).
  rewrite (frombuffer_at_ok (c_signed c) (c_size c) (838 + 54 * (Z.of_nat (length (c_frames c)) - 1)) codes data SZ FC ltac:(lia) PL). cbn [bind]. fold lo hi. rewrite NO. cbn [bind].
  set (y1 := if raw then y else map (fun w : A => (w *. c_yscale c +. c_yoff c)%num) y).
  assert (YL1 : length y1 = (length (c_frames c) * all)%nat) by (unfold y1; destruct raw; rewrite ?map_length, YL; exact CL).
  assert (AL : forall t, length (w_axis t) = all) by (intro t; unfold w_axis; rewrite time_axis_length; unfold all; lia).
  assert (CUT : forall rows, Forall (fun f : list A * list A => length (fst f) = all /\ length (snd f) = all) rows ->
    map (fun f : list A * list A => if pp then f else (pyslice (fst f) (Z.of_nat (c_pre c)) (Z.of_nat (c_pre c) + Z.of_nat (c_count c)),
       pyslice (snd f) (Z.of_nat (c_pre c)) (Z.of_nat (c_pre c) + Z.of_nat (c_count c)))) rows = if pp then rows else map w_cut rows).
  { intros rows F. destruct pp; [apply map_id|]. apply map_ext_in. intros f I. rewrite Forall_forall in F. destruct (F f I) as [L1 L2].
    rewrite !pyslice_mid by (unfold all in *; lia). reflexivity. }
  assert (RW : Forall (fun f : list A * list A => length (fst f) = all /\ length (snd f) = all) (combine (map w_axis (c_triggers c)) (parts (length (c_frames c)) all y1))).
  { pose proof (parts_len (length (c_frames c)) all y1 YL1) as PLN. apply Forall_forall. intros [a b] I. cbn [fst snd]. split.
    - apply in_combine_l in I. apply in_map_iff in I. destruct I as (t & <- & _). apply AL.
    - apply in_combine_r in I. rewrite Forall_forall in PLN. apply PLN, I. }
  assert (NA1 : (if pp then Z.of_nat (c_pre c) + Z.of_nat (c_count c) + Z.of_nat (c_pre c) else Z.of_nat (c_count c)) = if pp then Z.of_nat all else Z.of_nat (c_count c)).
  { destruct pp; [unfold all; lia|reflexivity]. }
  rewrite NA1. rewrite ET in RW.
  destruct (Z.of_nat (length (c_frames c)) =? 1) eqn:F1.
  - apply Z.eqb_eq in F1. assert (N1 : length (c_frames c) = 1%nat) by lia.
    assert (E0 : tts = [] /\ tss = []) by (split; [destruct tts|destruct tss]; cbn in LT, LS; try reflexivity; lia). destruct E0 as [-> ->].
    rewrite N1 in RW. cbn [map parts combine] in RW. rewrite Nat.mul_comm in YL1. assert (Y2 : firstn all y1 = y1) by (apply firstn_all2; rewrite YL1, N1; lia).
    rewrite Y2 in RW. change (time_axis (Z.of_nat (c_count c)) (Z.of_nat (c_pre c)) tt0 (c_xscale c) (c_xoff c)) with (w_axis tt0).
    rewrite (np_rows_ok all _ RW). cbn [bind]. rewrite (CUT _ RW). unfold recording_of. rewrite ET, ES, N1. cbn [map parts combine].
    change (if raw then y else map w_scale y) with y1. rewrite Y2. destruct raw, pp; reflexivity.
  - apply Z.eqb_neq in F1.
    assert (SP : np_split y1 (Z.of_nat (length (c_frames c))) = Ok (parts (length (c_frames c)) all y1)).
    { unfold np_split. rewrite YL1, Nat2Z.inj_mul. rewrite (Z.mul_comm (Z.of_nat (length (c_frames c)))), Z.mod_mul by lia. change (0 =? 0) with true. cbv iota.
      rewrite Z.div_mul by lia. rewrite !Nat2Z.id. reflexivity. }
    rewrite SP. cbn [bind].
    assert (MM : mapM (fast_frame double timestamp data (Z.of_nat (c_count c)) (Z.of_nat (c_pre c)) (c_xscale c) (c_xoff c))
               (map Z.of_nat (seq 0 (Z.to_nat (Z.of_nat (length (c_frames c)) - 1)))) = Ok (combine (map w_axis tts) tss)).
    { apply mapM_nth.
      - rewrite combine_length, !map_length, seq_length. lia.
      - intros i x [ax ts] N1 N2. rewrite nth_error_map in N1. destruct (nth_error (seq 0 _) i) as [i'|] eqn:NS; [|discriminate]. injection N1 as <-.
        assert (IL : (i < length (c_frames c) - 1)%nat).
        { assert (X : nth_error (seq 0 (Z.to_nat (Z.of_nat (length (c_frames c)) - 1))) i <> None) by congruence. apply nth_error_Some in X. rewrite seq_length in X. lia. }
        rewrite (nth_error_nth' _ 0%nat) in NS by (rewrite seq_length; lia). rewrite seq_nth in NS by lia. injection NS as <-. cbn [Nat.add].
        destruct (nth_error tts i) as [tti|] eqn:NT; [|apply nth_error_None in NT; lia].
        destruct (nth_error tss i) as [tsi|] eqn:NTS; [|apply nth_error_None in NTS; lia].
        assert (NC : nth_error (combine (map w_axis tts) tss) i = Some (w_axis tti, tsi)).
        { clear - NT NTS. revert tts tss NT NTS. induction i as [|i IH]; intros [|a tts] [|b tss] NT NTS; try discriminate; cbn in * .
          - congruence.
          - apply IH; assumption. }
        rewrite NC in N2. injection N2 as <- <-.
        assert (RNG : 838 + 24 * Z.of_nat i + 24 <= Z.of_nat (length data)).
        { unfold expected_length in EL. rewrite FF, O5 in EL. nia. }
        pose proof (TR (S i) tti NT) as TRI. pose proof (SM (S i) tsi NTS) as SMI. cbn [update_at] in TRI, SMI.
        unfold fast_frame. rewrite (Z.mul_comm (Z.of_nat i) 24).
        rewrite (unpack_d_ok data (838 + 24 * Z.of_nat i + 4) tti ltac:(lia) ltac:(lia) TRI).
        rewrite (unpack_d_ok data (838 + 24 * Z.of_nat i + 12) (double (at_ data (838 + 24 * Z.of_nat i + 12) 8)) ltac:(lia) ltac:(lia) eq_refl). cbn [bind].
        rewrite (unpack_s4_ok data (838 + 24 * Z.of_nat i + 20)) by lia. cbn [bind]. rewrite SMI. reflexivity. }
    rewrite MM. cbn [bind].
    assert (LC : length (map w_axis tts) = length tss) by (rewrite map_length; lia).
    assert (F1' : map fst (combine (map w_axis tts) tss) = map w_axis tts).
    { clear - LC. revert tss LC. induction (map w_axis tts) as [|a l IH]; intros [|b tss] LC; try discriminate; [reflexivity|]. cbn. f_equal. apply IH. injection LC as LC. exact LC. }
    assert (F2' : map snd (combine (map w_axis tts) tss) = tss).
    { clear - LC. revert tss LC. induction (map w_axis tts) as [|a l IH]; intros [|b tss] LC; try discriminate; [reflexivity|]. cbn. f_equal. apply IH. injection LC as LC. exact LC. }
    rewrite F1', F2'. change (time_axis (Z.of_nat (c_count c)) (Z.of_nat (c_pre c)) tt0 (c_xscale c) (c_xoff c) :: map w_axis tts) with (map w_axis (tt0 :: tts)).
    rewrite (np_rows_ok all _ RW). cbn [bind]. rewrite (CUT _ RW). unfold recording_of. rewrite ET, ES.
    change (if raw then y else map w_scale y) with y1. destruct raw, pp; reflexivity.
Qed.
End Decode.
End P.
