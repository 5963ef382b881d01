(** Files of Tektronix oscilloscopes: integrity (C29), decoding (C30) and dither
    noise (C28). *)
From Coq Require Import String ZArith Bool List Lia Reals Lra.
Import ListNotations.
From Verif Require Import Base Num PyStr ScpiProofs TekModel TekSpec TekProofs WfmModel WfmSpec WfmProofs RBool StatsProofs.
Local Open Scope Z_scope.

(** * C29 *)
(** A file that is accepted has the announced length, and its checksum is the
    sum of all bytes before the checksum. *)
Theorem C29_checked : forall A (NA : Num A) (double : list Z -> A) utf8 T (timestamp : Z -> A -> result T) uniform data raw noise prepost r,
  is_bytes data -> parse_wfm_file double utf8 timestamp uniform data raw noise prepost = Ok r ->
  at_ data 0 2 = [15; 15] /\ expected_length data <= Z.of_nat (length data) /\
  number data (expected_length data - 8) 8 = sum (firstn (Z.to_nat (expected_length data - 8)) data).
Proof. intros A NA double utf8 T timestamp uniform data raw noise pp r B E. apply accepted in E; [|exact B]. destruct E as (_ & M & L & C). repeat split; assumption. Qed.
Print Assumptions C29_checked.
(** Only version 3 files of one sampled YT trace, whose samples have one of
    the supported types and the announced size, are accepted. *)
Theorem C29_format : forall A (NA : Num A) (double : list Z -> A) utf8 T (timestamp : Z -> A -> result T) uniform data raw noise prepost r,
  is_bytes data -> parse_wfm_file double utf8 timestamp uniform data raw noise prepost = Ok r ->
  parse_int (at_ data 7 3) = Some 3 /\ number data 114 4 = 1 /\ number data 118 4 = 1 /\ number data 122 4 = 2 /\ number data 244 4 = 0 /\
  exists signed, In (number data 240 4, (signed, number data 15 1)) sample_types.
Proof.
  intros A NA double utf8 T timestamp uniform data raw noise pp r B E. pose proof (charges _ _ _ _ _ _ _ _ _ B E) as (size' & S1 & S2 & _).
  apply accepted_format in E; [|exact B]. destruct E as (V & D1 & D2 & D3 & D4 & signed & size & I & U). repeat (split; [assumption|]).
  exists signed. replace (number data 15 1) with size; [exact I|].
  unfold unpack_s in U. destruct (unpack data 1 15) as [bb|] eqn:UU; cbn [bind] in U; [|discriminate]. injection U as U. apply unpack_inv in UU; [|lia|lia]. subst bb.
  rewrite le_unsigned in U. change (le (at_ data 15 1)) with (number data 15 1) in U. unfold signed_of in U. change (2 ^ (8 * 1 - 1)) with 128 in U. change (2 ^ (8 * 1)) with 256 in U.
  assert (1 <= size) by (unfold sample_types in I; cbn in I; repeat destruct I as [I|I]; try contradiction; injection I; lia).
  assert (UB : number data 15 1 < 256).
  { unfold number. pose proof (at_bytes data 15 1 B) as AB. assert (LL : (length (at_ data 15 1) <= 1)%nat) by (unfold at_; rewrite firstn_length; lia).
    destruct (at_ data 15 1) as [|z [|? ?]]; cbn in LL |- * ; [lia|inversion AB; lia|lia]. }
  destruct (_ <? 128); lia.
Qed.
Print Assumptions C29_format.
(** Any other value of any one byte of the announced length, except the bytes
    that announce the length, is noticed. *)
Theorem C29_single_byte : forall A (NA : Num A) (double : list Z -> A) utf8 T (timestamp : Z -> A -> result T) uniform l1 b b' l2 raw noise prepost r,
  let data := l1 ++ b :: l2 in
  is_bytes data -> parse_wfm_file double utf8 timestamp uniform data raw noise prepost = Ok r ->
  0 <= b' < 256 -> b' <> b -> Z.of_nat (length l1) < expected_length data -> ~ length_field (Z.of_nat (length l1)) ->
  forall raw' noise' prepost', exists e, parse_wfm_file double utf8 timestamp uniform (l1 ++ b' :: l2) raw' noise' prepost' = Err e.
Proof.
  intros A NA double utf8 T timestamp uniform l1 b b' l2 raw noise pp r data B E Rb N L LF raw' noise' pp'.
  destruct (parse_wfm_file double utf8 timestamp uniform (l1 ++ b' :: l2) raw' noise' pp') as [r'|e] eqn:E'; [|exists e; reflexivity]. exfalso.
  assert (B' : is_bytes (l1 ++ b' :: l2)).
  { unfold is_bytes, data in * . apply Forall_app in B. destruct B as [B1 B2]. inversion B2; subst. apply Forall_app. split; [exact B1|]. constructor; assumption. }
  destruct (single_byte l1 b b' l2 ltac:(congruence) B B' LF L) as [EL F].
  apply accepted in E; [|exact B]. apply accepted in E'; [|exact B']. destruct E as (_ & _ & _ & C). destruct E' as (_ & _ & _ & C').
  rewrite EL in C'. exact (F C C').
Qed.
Print Assumptions C29_single_byte.
(** A file cut short is not accepted. *)
Theorem C29_truncated : forall A (NA : Num A) (double : list Z -> A) utf8 T (timestamp : Z -> A -> result T) uniform data raw noise prepost r n,
  is_bytes data -> parse_wfm_file double utf8 timestamp uniform data raw noise prepost = Ok r -> Z.of_nat n < expected_length data ->
  forall raw' noise' prepost', exists e, parse_wfm_file double utf8 timestamp uniform (firstn n data) raw' noise' prepost' = Err e.
Proof.
  intros A NA double utf8 T timestamp uniform data raw noise pp r n B E L raw' noise' pp'.
  destruct (parse_wfm_file double utf8 timestamp uniform (firstn n data) raw' noise' pp') as [r'|e] eqn:E'; [|exists e; reflexivity]. exfalso.
  apply accepted in E'; [|apply is_bytes_firstn, B]. destruct E' as (L1 & _ & L2 & _). rewrite firstn_length in L1, L2.
  assert (EL : expected_length (firstn n data) = expected_length data).
  { unfold expected_length, number. rewrite !at_firstn by lia. reflexivity. }
  lia.
Qed.
Print Assumptions C29_truncated.

(** * C30 *)
(** The decoded file: one pair of axes per frame, in order, with or without
    the charge samples, the clipping flags and the information. *)
Theorem C30_decode : forall A (NA : Num A) (double : list Z -> A) utf8 T (timestamp : Z -> A -> result T) uniform (c : contents A T) data (raw prepost : bool),
  wfm_file double utf8 timestamp c data ->
  let size := c_size c in
  let lo := lowest (c_signed c) size in
  let hi := highest (c_signed c) size in
  let all := (c_pre c + c_count c + c_pre c)%nat in
  let value x := if raw then nofZ x else (nofZ x *. c_yscale c +. c_yoff c)%num in
  exists r, parse_wfm_file double utf8 timestamp uniform data raw false prepost = Ok r /\
    length (frames r) = length (c_frames c) /\
    (forall j codes tt, nth_error (c_frames c) j = Some codes -> nth_error (c_triggers c) j = Some tt ->
       nth_error (frames r) j = Some
         (map (fun i => ((nofZ (Z.of_nat i - (if prepost then Z.of_nat (c_pre c) else 0)) +. tt) *. c_xscale c +. c_xoff c)%num)
              (seq 0 (if prepost then all else c_count c)),
          map value (if prepost then codes else firstn (c_count c) (skipn (c_pre c) codes)))) /\
    r_timestamps r = c_stamps c /\
    (r_clipping_top r = true <-> exists codes x, In codes (c_frames c) /\ In x codes /\ hi <= x) /\
    (r_clipping_bottom r = true <-> exists codes x, In codes (c_frames c) /\ In x codes /\ x <= lo) /\
    r_clip_min r = value lo /\ r_clip_max r = value hi /\
    r_x_unit r = c_xunit c /\ r_y_unit r = (if raw then str "ADC Counts" else c_yunit c) /\
    r_x_incr r = c_xscale c /\ r_y_incr r = (if raw then nofZ 1 else c_yscale c) /\
    r_config r = str "Label: " ++ c_label c ++ str ", " ++ str_int (Z.of_nat (if prepost then all else c_count c)) ++ str " points, " ++
                 str_int (Z.of_nat (length (c_frames c))) ++ str " frame" ++ (if (1 <? Z.of_nat (length (c_frames c)))%Z then str "s" else []).
Proof.
  intros A NA double utf8 T timestamp uniform c data raw pp W size lo hi all value.
  exists (recording_of c raw pp (map nofZ (concat (c_frames c)))). split; [apply (decoded double utf8 timestamp uniform c); [exact W|reflexivity|apply map_length]|].
  destruct W as (_ & NE & FR & LT & LS & _).
  assert (FL : Forall (fun f => length f = all) (c_frames c)) by (eapply Forall_impl; [|exact FR]; intros f [X _]; exact X).
  assert (PT : parts (length (c_frames c)) all (if raw then map nofZ (concat (c_frames c)) else map (w_scale c) (map nofZ (concat (c_frames c)))) =
               map (map value) (c_frames c)).
  { transitivity (parts (length (map (map value) (c_frames c))) all (concat (map (map value) (c_frames c)))).
    - rewrite map_length. f_equal. rewrite <- concat_map. unfold value. destruct raw; [reflexivity|]. rewrite map_map. reflexivity.
    - apply parts_concat. apply Forall_map. eapply Forall_impl; [|exact FL]. intros f X. rewrite map_length. exact X. }
  unfold recording_of. cbn [frames r_timestamps r_clipping_top r_clipping_bottom r_clip_min r_clip_max r_x_unit r_y_unit r_x_incr r_y_incr r_config].
  fold all. rewrite PT. repeat match goal with |- _ /\ _ => split end.
  - destruct pp; rewrite ?map_length, combine_length, !map_length; lia.
  - intros j codes tt N1 N2.
    assert (NC : nth_error (combine (map (w_axis c) (c_triggers c)) (map (map value) (c_frames c))) j = Some (w_axis c tt, map value codes)).
    { clear - N1 N2. generalize dependent (c_triggers c). generalize dependent (c_frames c). induction j as [|j IH]; intros [|f fs] N1 [|t ts] N2; try discriminate; cbn in * .
      - congruence.
      - apply IH; assumption. }
    assert (AX : w_axis c tt = map (fun i => ((nofZ (Z.of_nat i - Z.of_nat (c_pre c)) +. tt) *. c_xscale c +. c_xoff c)%num) (seq 0 all)).
    { unfold w_axis, time_axis, zrange_from. rewrite map_map. replace (Z.to_nat _) with all by (unfold all; lia). apply map_ext. intro i. do 4 f_equal. lia. }
    destruct pp.
    + rewrite NC. f_equal. f_equal. exact AX.
    + rewrite nth_error_map, NC. unfold w_cut. cbn [option_map fst snd]. f_equal. f_equal.
      * rewrite AX, skipn_map, firstn_map. replace all with (c_pre c + (c_count c + c_pre c))%nat by (unfold all; lia).
        rewrite seq_app, skipn_app, seq_length, Nat.sub_diag. rewrite skipn_all2 by (rewrite seq_length; lia). cbn [app skipn Nat.add].
        rewrite seq_app, firstn_app, seq_length, Nat.sub_diag. rewrite firstn_all2 by (rewrite seq_length; lia). cbn [firstn]. rewrite app_nil_r.
        rewrite <- (Nat.add_0_r (c_pre c)) at 1. clear. generalize 0%nat. intro k. revert k. induction (c_count c) as [|n IH]; intro k; cbn [seq map]; [reflexivity|].
        f_equal; [do 4 f_equal; lia|]. rewrite <- (IH (S k)). f_equal. f_equal. lia.
      * rewrite skipn_map, firstn_map. reflexivity.
  - reflexivity.
  - rewrite existsb_exists. split.
    + intros (x & I & L). apply in_concat in I. destruct I as (f & I1 & I2). exists f, x. apply Z.leb_le in L. repeat split; assumption.
    + intros (f & x & I1 & I2 & L). exists x. split; [apply in_concat; exists f; split; assumption|]. apply Z.leb_le. exact L.
  - rewrite existsb_exists. split.
    + intros (x & I & L). apply in_concat in I. destruct I as (f & I1 & I2). exists f, x. apply Z.leb_le in L. repeat split; assumption.
    + intros (f & x & I1 & I2 & L). exists x. split; [apply in_concat; exists f; split; assumption|]. apply Z.leb_le. exact L.
  - unfold value, w_scale. destruct raw; reflexivity.
  - unfold value, w_scale. destruct raw; reflexivity.
  - reflexivity.
  - reflexivity.
  - reflexivity.
  - reflexivity.
  - destruct pp; reflexivity.
Qed.
Print Assumptions C30_decode.
(** Files with different numbers of leading and trailing charge samples are
    never returned: the time axis is built for equal ones. *)
Theorem C30_unequal_charge : forall A (NA : Num A) (double : list Z -> A) utf8 T (timestamp : Z -> A -> result T) uniform data raw noise prepost,
  is_bytes data ->
  let size := number data 15 1 in
  number data 818 4 <= number data 822 4 <= number data 826 4 -> number data 826 4 <= number data 830 4 ->
  (number data 822 4 - number data 818 4) / size <> (number data 830 4 - number data 826 4) / size ->
  exists e, parse_wfm_file double utf8 timestamp uniform data raw noise prepost = Err e.
Proof.
  intros A NA double utf8 T timestamp uniform data raw noise pp B size M1 M2 D.
  destruct (parse_wfm_file double utf8 timestamp uniform data raw noise pp) as [r|e] eqn:E; [|exists e; reflexivity]. exfalso.
  apply charges in E; [|exact B]. destruct E as (s & S1 & S2 & S3). apply D. unfold size. rewrite S2. apply S3; apply Z.div_pos; lia.
Qed.
Print Assumptions C30_unequal_charge.

(** ** Files *)
Definition put (off : Z) (bs l : list Z) : list Z := firstn (Z.to_nat off) l ++ bs ++ skipn (Z.to_nat off + length bs) l.
Definition ex_header (code size additional o1 o2 o3 o4 o5 : Z) : list Z :=
  fold_left (fun l f => put (fst f) (snd f) l)
    [(0, [15; 15]); (2, str ":WFM#003"); (15, [size]); (40, str "CH1"); (72, bytes_le 4 additional); (114, bytes_le 4 1); (118, bytes_le 4 1); (122, bytes_le 4 2);
     (168, bytes_le 8 3); (176, bytes_le 8 100); (188, str "V"); (240, bytes_le 4 code); (488, bytes_le 8 10); (496, bytes_le 8 7); (508, str "s");
     (788, bytes_le 8 2); (796, bytes_le 8 0); (804, bytes_le 4 1000); (818, bytes_le 4 o1); (822, bytes_le 4 o2); (826, bytes_le 4 o3); (830, bytes_le 4 o4); (834, bytes_le 4 o5)]
    (repeat 0 (Z.to_nat 838)).
Definition ex_close (l : list Z) : list Z := l ++ bytes_le 8 (sum l).
Definition ex_contents : contents Z Z :=
  Contents 0 true 2 1 2 (str "CH1") [[1; 2; -3; 4]; [5; 32767; 7; 8]] [1000; 2000] [2; 5] 10 7 (str "s") 3 100 (str "V").
Definition ex_file : list Z :=
  ex_close (ex_header 0 2 1 0 2 6 8 8 ++ put 20 (bytes_le 4 2000) (put 4 (bytes_le 8 5) (repeat 0 (Z.to_nat 54)))
            ++ payload false 2 [1; 2; -3; 4; 5; 32767; 7; 8]).
Definition ex_stamp (gmt frac : Z) : result Z := Ok gmt.
Example C30_met : wfm_file le (fun b => Some b) ex_stamp ex_contents ex_file.
Proof.
  repeat match goal with |- wfm_file _ _ _ _ _ => red; cbv zeta | |- _ /\ _ => split end.
  all: match goal with |- _ = _ => vm_compute; reflexivity | |- double_at _ _ _ _ => vm_compute; reflexivity | _ => idtac end.
  - left. reflexivity.
  - discriminate.
  - repeat constructor; vm_compute; intuition discriminate.
  - vm_compute. discriminate.
  - exists (str "CH1"), (repeat 0 17). repeat split; [vm_compute; intuition discriminate|]. right. exists (repeat 0 16). reflexivity.
  - exists (str "V"), (repeat 0 19). repeat split; [vm_compute; intuition discriminate|]. right. exists (repeat 0 18). reflexivity.
  - exists (str "s"), (repeat 0 19). repeat split; [vm_compute; intuition discriminate|]. right. exists (repeat 0 18). reflexivity.
  - intros [|[|j]] tt E; cbn in E; [injection E as <-|injection E as <-|destruct j; discriminate]; vm_compute; reflexivity.
  - intros [|[|j]] ts E; cbn in E; [injection E as <-|injection E as <-|destruct j; discriminate]; vm_compute; reflexivity.
  - vm_compute. discriminate.
Qed.
Example C30_example : exists r, parse_wfm_file le (fun b => Some b) ex_stamp (fun _ _ => []) ex_file false false false = Ok r /\
  frames r = [([27; 37], [106; 91]); ([57; 67], [98401; 121])] /\ r_clipping_top r = true /\ r_clipping_bottom r = false /\
  r_config r = str "Label: CH1, 2 points, 2 frames".
Proof. eexists. split; [vm_compute; reflexivity|]. repeat split. Qed.
Example C29_met : is_bytes ex_file /\ expected_length ex_file = 916 /\ Z.of_nat (length ex_file) = 916.
Proof. split; [|split; vm_compute; reflexivity]. apply Forall_forall. apply (proj1 (Forall_forall _ _)). apply (Forall_impl (fun b => 0 <= b < 256) (P := fun b => (0 <=? b) && (b <? 256) = true)); [intros b H; apply andb_prop in H; lia|]. apply Forall_forall. apply forallb_forall. vm_compute. reflexivity. Qed.

(** A change of a byte that announces the length may go unnoticed: the file is
    extended so that both lengths lead to a matching checksum. *)
Definition ex_short : list Z := ex_close (ex_header 7 1 0 0 0 1 1 1 ++ [9]).
Definition ex_double : list Z := let l := ex_short ++ repeat 0 11 in l ++ bytes_le 8 (sum l + 19).
Theorem C29_length_field_refuted : exists l1 b b' l2 r r',
  ex_double = l1 ++ b :: l2 /\ b <> b' /\ length_field (Z.of_nat (length l1)) /\
  parse_wfm_file le (fun b => Some b) ex_stamp (fun _ _ => []) (l1 ++ b :: l2) false false false = Ok r /\
  parse_wfm_file le (fun b => Some b) ex_stamp (fun _ _ => []) (l1 ++ b' :: l2) false false false = Ok r'.
Proof.
  exists (firstn (Z.to_nat 834) ex_double), 1, 20, (skipn (Z.to_nat 835) ex_double). eexists. eexists.
  split; [vm_compute; reflexivity|]. split; [discriminate|]. split; [right; vm_compute; intuition discriminate|]. split; vm_compute; reflexivity.
Qed.
Print Assumptions C29_length_field_refuted.
(** The samples are taken from the start of the curve buffer even if the file
    announces a later start: bytes that are not samples are returned as such. *)
Theorem C30_precharge_offset_refuted :
  let data := ex_close (ex_header 7 1 0 2 3 5 6 6 ++ [77; 78] ++ [1; 2; 3; 4]) in
  number data 818 4 = 2 /\ number data 822 4 = 3 /\ number data 826 4 = 5 /\
  match parse_wfm_file le (fun b => Some b) ex_stamp (fun _ _ => []) data true false false with
  | Ok r => map snd (frames r) = [[78; 1]]
  | Err _ => False
  end.
Proof. vm_compute. repeat split. Qed.
Print Assumptions C30_precharge_offset_refuted.

(** * C28 for files *)
Lemma dither_in_spec lo hi c u k : lo + 1 <= hi -> 0 <= k -> (- (IZR (2 ^ k) / 2) <= u < IZR (2 ^ k) / 2)%R ->
  let y := dither_in lo hi (IZR c) u in
  (lo <= c <= hi -> (Rabs (y - IZR c) <= IZR (2 ^ k) / 2)%R) /\ (IZR lo <= y <= IZR hi)%R /\
  (k = 0 -> hi <= c -> y = IZR hi) /\ (k = 0 -> c <= lo -> y = IZR lo).
Proof.
  intros M K U. unfold dither_in. cbn [nadd nsub nle nlt nofZ nhalf NumR].
  assert (MR : (IZR lo + 1 <= IZR hi)%R) by (rewrite <- plus_IZR; apply IZR_le; exact M).
  assert (P1 : k = 0 -> IZR (2 ^ k) = 1%R) by (intros ->; reflexivity).
  assert (PG : (1 <= IZR (2 ^ k))%R) by (apply IZR_le; assert (0 < 2 ^ k) by (apply Z.pow_pos_nonneg; lia); lia).
  assert (INT : forall a : Z, (2 * IZR a < IZR (2 ^ k) + 1)%R -> (IZR a <= IZR (2 ^ k) / 2)%R).
  { intros a L. rewrite <- (mult_IZR 2 a) in L. change 1%R with (IZR 1) in L. rewrite <- plus_IZR in L. apply lt_IZR in L.
    assert (X : (IZR (2 * a) <= IZR (2 ^ k))%R) by (apply IZR_le; lia). rewrite mult_IZR in X. lra. }
  destruct (Rleb (IZR hi - / 2) (IZR c + u)) eqn:E1; [apply Rleb_true in E1|apply Rleb_false in E1].
  - assert (X : Rltb (IZR hi) (IZR lo + / 2) = false) by (apply Rltb_false; lra). rewrite X. cbv zeta. repeat apply conj.
    + intros [B1 B2]. apply IZR_le in B2. rewrite Rabs_pos_eq by lra. rewrite <- minus_IZR. apply INT. rewrite minus_IZR. lra.
    + lra.
    + lra.
    + intros _ _. reflexivity.
    + intros -> C. exfalso. apply IZR_le in C. rewrite P1 in U by reflexivity. lra.
  - destruct (Rltb (IZR c + u) (IZR lo + / 2)) eqn:E2; [apply Rltb_true in E2|apply Rltb_false in E2]; cbv zeta; repeat apply conj; try lra.
    + intros [B1 B2]. apply IZR_le in B1. rewrite Rabs_left1 by lra.
      replace (- (IZR lo - IZR c))%R with (IZR (c - lo)) by (rewrite minus_IZR; lra). apply INT. rewrite minus_IZR. lra.
    + intros -> C. exfalso. apply IZR_le in C. rewrite P1 in U by reflexivity. lra.
    + intros _. replace (IZR c + u - IZR c)%R with u by lra. apply Rabs_le. lra.
    + intros -> C. exfalso. apply IZR_le in C. rewrite P1 in U by reflexivity. lra.
    + intros -> C. exfalso. apply IZR_le in C. rewrite P1 in U by reflexivity. lra.
Qed.
(** The noise on the samples of a file, seen in raw mode with the charge
    samples, and that flags and axes do not change. *)
Theorem C28_file : forall double utf8 T (timestamp : Z -> R -> result T) uniform (c : contents R T) data,
  wfm_file double utf8 timestamp c data -> draws_ok uniform ->
  let lo := lowest (c_signed c) (c_size c) in
  let hi := highest (c_signed c) (c_size c) in
  exists r q k, parse_wfm_file double utf8 timestamp uniform data true true true = Ok r /\
    parse_wfm_file double utf8 timestamp uniform data true false true = Ok q /\
    granularity (c_size c) (concat (c_frames c)) k /\
    Forall2 (fun x y => (lo <= x <= hi -> (Rabs (y - IZR x) <= IZR (2 ^ k) / 2)%R) /\ (IZR lo <= y <= IZR hi)%R /\
                        (k = 0 -> hi <= x -> y = IZR hi) /\ (k = 0 -> x <= lo -> y = IZR lo))
      (concat (c_frames c)) (concat (map snd (frames r))) /\
    map fst (frames r) = map fst (frames q) /\ r_clipping_top r = r_clipping_top q /\ r_clipping_bottom r = r_clipping_bottom q.
Proof.
  intros double utf8 T timestamp uniform c data W DR lo hi. pose proof W as W0. destruct W as (TY & NE & FR & LT & LS & _).
  destruct (sample_format _ _ _ TY) as [FM SZ].
  assert (FC : Forall (fits (c_signed c) (c_size c)) (concat (c_frames c))).
  { apply Forall_concat. eapply Forall_impl; [|exact FR]. intros f [_ X]. exact X. }
  set (codes := concat (c_frames c)) in * .
  destruct (lsb_granularity (c_signed c) (c_size c) codes ltac:(lia) FC) as [G K].
  destruct (DR (lsb_of (c_size c) codes) (Z.of_nat (length codes)) K ltac:(lia)) as [UL UB]. rewrite Nat2Z.id in UL.
  set (us := uniform (lsb_of (c_size c) codes) (Z.of_nat (length codes))) in * .
  set (y := map (fun yu : Z * R => dither_in lo hi (IZR (fst yu)) (snd yu)) (combine codes us)).
  assert (YL : length y = length codes) by (unfold y; rewrite map_length, combine_length; lia).
  assert (DI : dither_codes uniform (c_size c) lo hi (Z.of_nat (length codes)) codes = Ok y).
  { unfold dither_codes. rewrite (proj2 (Z.ltb_ge _ _)) by lia. fold us. rewrite UL, Nat.eqb_refl. reflexivity. }
  exists (recording_of c true true y), (recording_of c true true (map (@nofZ R _) codes)), (lsb_of (c_size c) codes).
  split; [apply (decoded double utf8 timestamp uniform c data true true true y W0 DI YL)|].
  split; [apply (decoded double utf8 timestamp uniform c data true false true (map nofZ codes) W0 eq_refl (map_length _ _))|].
  split; [exact G|].
  assert (LP : forall z : list R, length z = length codes ->
    length (parts (length (c_frames c)) (c_pre c + c_count c + c_pre c) z) = length (map (w_axis c) (c_triggers c))).
  { intros z _. rewrite parts_length, map_length. lia. }
  assert (CF : forall (X Y : Type) (a : list X) (b : list Y), length b = length a -> map fst (combine a b) = a /\ map snd (combine a b) = b).
  { clear. intros X Y a. induction a as [|x a IH]; intros [|y b] L; try discriminate; [split; reflexivity|]. injection L as L. destruct (IH b L) as [E1 E2]. cbn. rewrite E1, E2. split; reflexivity. }
  assert (CC : forall len n (z : list R), length z = (n * len)%nat -> concat (parts n len z) = z).
  { clear. intros len n. induction n as [|n IH]; intros z L; cbn [parts concat]; [destruct z; [reflexivity|discriminate]|]. rewrite IH by (rewrite skipn_length; lia). apply firstn_skipn. }
  assert (CL : length codes = (length (c_frames c) * (c_pre c + c_count c + c_pre c))%nat).
  { apply concat_length. eapply Forall_impl; [|exact FR]. intros f [X _]. exact X. }
  unfold recording_of. cbn [frames r_clipping_top r_clipping_bottom]. split; [|split; [|split; reflexivity]].
  - rewrite (proj2 (CF _ _ _ _ (LP y YL))). rewrite CC by lia. unfold y.
    assert (LH : lo + 1 <= hi).
    { unfold lo, hi. destruct (c_signed c), SZ as [-> | [-> | [-> | ->]]]; vm_compute; discriminate. }
    clear - LH K UB UL. clearbody codes us. revert us UL UB. set (k := lsb_of (c_size c) codes) in * . clearbody k. induction codes as [|x l IH]; intros [|u us] UL UB; try discriminate; [constructor|].
    inversion UB; subst. cbn [combine map fst snd]. constructor; [apply (dither_in_spec lo hi x u k LH K); assumption|]. apply IH; [injection UL as UL; exact UL|assumption].
  - rewrite (proj1 (CF _ _ _ _ (LP y YL))), (proj1 (CF _ _ _ _ (LP (map nofZ codes) (map_length _ _)))). reflexivity.
Qed.
Print Assumptions C28_file.
