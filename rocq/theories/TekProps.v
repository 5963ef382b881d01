(** Replies of Tektronix oscilloscopes: waveforms (C27), dither noise (C28) and
    enumerated values (C31). *)
From Coq Require Import String ZArith Bool List Lia Reals Lra.
Import ListNotations.
From Verif Require Import Base Num PyStr ScpiModel ScpiSpec ScpiProofs TekModel TekSpec TekProofs RBool StatsProofs.
Local Open Scope Z_scope.

(** * C27 *)
(** The samples, the time axis and the information of a waveform reply. *)
Theorem C27_decode : forall A (NA : Num A) to_float uniform utf8 (pre : preamble A) codes bytes,
  waveform_reply to_float utf8 pre codes bytes ->
  let m := limit (p_size pre) in
  let volts (v : A) := ((v -. p_yoff pre) *. p_ymult pre +. p_yzero pre)%num in
  exists w, parse_waveform_query to_float uniform utf8 bytes false false = Ok w /\
    y_axis w = map (fun c => volts (nofZ c)) codes /\
    length (x_axis w) = length codes /\
    (forall i, (i < length codes)%nat -> nth_error (x_axis w) i = Some (p_xzero pre +. p_xincr pre *. nofZ (Z.of_nat i))%num) /\
    (clipping_top w = true <-> exists c, In c codes /\ m <= c) /\
    (clipping_bottom w = true <-> exists c, In c codes /\ c <= - m) /\
    y_clip_min w = volts (nofZ (- m)) /\ y_clip_max w = volts (nofZ m) /\
    config_string w = p_id pre /\ x_unit w = p_xunit pre /\ y_unit w = p_yunit pre /\
    x_incr w = p_xincr pre /\ y_incr w = p_ymult pre.
Proof.
  intros A NA to_float uniform utf8 pre codes bytes (long & text & s & digits & tail & -> & M & D & U & SN & SZ & NE & F & P) m volts.
  eexists. rewrite (pwq to_float uniform utf8 long text s pre codes digits tail false false M D U SN SZ NE F P).
  cbn [bind]. rewrite map_length, Nat.eqb_refl. split; [reflexivity|]. unfold result_of. cbn. fold m. repeat split; intros.
  - rewrite map_map. reflexivity.
  - rewrite map_length, seq_length. reflexivity.
  - rewrite nth_error_map. rewrite (nth_error_nth' _ 0%nat) by (rewrite seq_length; assumption). rewrite seq_nth by assumption. reflexivity.
  - apply existsb_exists in H. destruct H as (c & I & L). exists c. split; [exact I|]. apply Z.leb_le. exact L.
  - destruct H as (c & I & L). apply existsb_exists. exists c. split; [exact I|]. apply Z.leb_le. exact L.
  - apply existsb_exists in H. destruct H as (c & I & L). exists c. split; [exact I|]. apply Z.leb_le. exact L.
  - destruct H as (c & I & L). apply existsb_exists. exists c. split; [exact I|]. apply Z.leb_le. exact L.
Qed.
Print Assumptions C27_decode.
(** Raw mode: the transmitted codes, on the same time axis and with the same
    flags. *)
Theorem C27_raw : forall A (NA : Num A) to_float uniform utf8 (pre : preamble A) codes bytes,
  waveform_reply to_float utf8 pre codes bytes ->
  let m := limit (p_size pre) in
  exists w v, parse_waveform_query to_float uniform utf8 bytes true false = Ok w /\
    parse_waveform_query to_float uniform utf8 bytes false false = Ok v /\
    y_axis w = map nofZ codes /\ x_axis w = x_axis v /\
    clipping_top w = clipping_top v /\ clipping_bottom w = clipping_bottom v /\
    y_clip_min w = nofZ (- m) /\ y_clip_max w = nofZ m /\ y_unit w = str "ADC Counts" /\ y_incr w = nofZ 1.
Proof.
  intros A NA to_float uniform utf8 pre codes bytes (long & text & s & digits & tail & -> & M & D & U & SN & SZ & NE & F & P) m.
  eexists. eexists. rewrite !(pwq to_float uniform utf8 long text s pre codes digits tail _ false M D U SN SZ NE F P).
  cbn [bind]. rewrite map_length, Nat.eqb_refl. repeat split.
Qed.
Print Assumptions C27_raw.
(** A payload shorter than announced is rejected, never returned as a shorter
    waveform. *)
Theorem C27_truncated : forall A (NA : Num A) to_float uniform utf8 (pre : preamble A) long text s digits data raw add_noise,
  let curve := block digits data in
  marked long text curve -> (length digits <= 15)%nat -> utf8 text = Some s -> sent to_float pre s ->
  p_size pre = 1 \/ p_size pre = 2 -> (forall k n, length (uniform k n) = Z.to_nat n) ->
  Z.of_nat (length data) < p_points pre * p_size pre ->
  parse_waveform_query to_float uniform utf8 (reply_bytes long text curve) raw add_noise = Err ValueError.
Proof. intros. eapply pwq_short; eassumption. Qed.
Print Assumptions C27_truncated.
(** Sample bytes that happen to read ";:CURVE " make a complete reply
    unreadable. *)
Theorem C27_mark_in_payload : forall A (NA : Num A) (to_float : pystr -> result A) uniform utf8 text curve raw add_noise,
  ~ occurs (str ";:CURVE ") text -> occurs (str ";:CURVE ") curve ->
  ~ occurs (str ";:CURV ") (text ++ str ";:CURVE " ++ curve) ->
  parse_waveform_query to_float uniform utf8 (text ++ str ";:CURVE " ++ curve) raw add_noise = Err ValueError.
Proof.
  intros A NA to_float uniform utf8 text curve raw add_noise N O N2. unfold parse_waveform_query.
  pose proof (split_reply_ambiguous text curve N O N2) as E. unfold reply_bytes, curve_mark in E. rewrite E. reflexivity.
Qed.
Print Assumptions C27_mark_in_payload.

(** How the entries of a preamble are read: every accepted spelling of their
    names, every text of their kind. *)
Theorem C27_entries : forall A (NA : Num A) (to_float : pystr -> result A) name kind node text v,
  In (name, kind) preamble_entries -> spelling (str name) (upper node) -> read_as to_float kind text v ->
  stored VStr (Some (tek_types to_float)) ([str "WFMOUTPRE"; node], text) ([str "WFMOUTPRE"; upper (str name)], v).
Proof.
  intros A NA to_float name kind node text v I S R.
  assert (last (upper node) 0 <> 10 /\ find (fun kt => rmatch (tokens (fst kt)) (upper node)) (waveform_list to_float) = Some (str name, TCall (call_of to_float kind))) as [N F].
  { apply spelling_in in S. generalize dependent (upper node). clear node. intros u S. unfold preamble_entries in I. cbn [In] in I.
    repeat (destruct I as [I|I]; [injection I as <- <-; vm_compute in S; repeat (destruct S as [S|S]; [rewrite <- S; split; [vm_compute; discriminate|reflexivity]|]); contradiction|]). contradiction. }
  apply (stored_waveform to_float node text (str name) (call_of to_float kind) v); [exact N|exact F| |reflexivity].
  destruct kind; cbn [read_as call_of] in * .
  - destruct R as (n & E & ->). unfold as_int. rewrite E. reflexivity.
  - destruct R as (a & E & ->). unfold as_float. rewrite E. reflexivity.
  - rewrite R. reflexivity.
  - destruct R as (i & j & t & -> & N1 & N2 & ->). unfold as_quoted. do 2 f_equal. apply strip_quotes; assumption.
Qed.
Print Assumptions C27_entries.

(** ** A reply *)
Definition ex_float (s : pystr) : result Z := match parse_int s with Some n => Ok n | None => Err ValueError end.
Definition ex_pre : preamble Z := Preamble 2 true true 3 (str "Ch1, DC") (str "s") 10 (-5) (str "V") 3 7 100.
Definition ex_codes := [32512; -2; 515].
Definition ex_fields : list (string * string) :=
  [("BYT_NR", "2"); ("BIT_NR", "16"); ("ENCDG", "BINARY"); ("BN_FMT", "RI"); ("BYT_OR", "MSB"); ("WFID", """Ch1, DC""");
   ("NR_PT", "3"); ("PT_FMT", "Y"); ("XUNIT", """s"""); ("XINCR", "10"); ("XZERO", "-5"); ("PT_OFF", "0"); ("YUNIT", """V""");
   ("YMULT", "3"); ("YOFF", "7"); ("YZERO", "100")]%string.
(** As sent by the 4/5/6 series when the units contain a mu: no quote before
    ;NR_PT. *)
Definition ex_text : pystr := str ":WFMOUTPRE:BYT_NR 2;BIT_NR 16;ENCDG BINARY;BN_FMT RI;BYT_OR MSB;WFID ""Ch1, DC;NR_PT 3;PT_FMT Y;XUNIT ""s"";XINCR 10;XZERO -5;PT_OFF 0;YUNIT ""V"";YMULT 3;YOFF 7;YZERO 100".
Definition ex_bytes : list Z := ex_text ++ str ";:CURVE #16" ++ [127; 0; 255; 254; 2; 3] ++ [10].
Definition ex_settings : list setting := map (fun kv => ([str "WFMOUTPRE"; str (fst kv)], str (snd kv))) ex_fields.
Definition ex_cmds : list pystr :=
  match map (fun kv => str (fst kv) ++ 32 :: str (snd kv)) ex_fields with
  | c :: cs => (str ":WFMOUTPRE:" ++ c) :: cs
  | [] => []
  end.
Definition ex_values : list (value Z) :=
  [VInt 2; VInt 16; VStr (str "BINARY"); VStr (str "RI"); VStr (str "MSB"); VStr (str "Ch1, DC"); VInt 3; VStr (str "Y"); VStr (str "s");
   VFloat 10; VFloat (-5); VInt 0; VStr (str "V"); VFloat 3; VFloat 7; VFloat 100].
Definition ex_stored : list (path * value Z) := combine (map fst ex_settings) ex_values.
Lemma reply_fields outer l : reply [outer] (map (fun kv : string * string => ([outer; str (fst kv)], str (snd kv))) l) (map (fun kv => str (fst kv) ++ 32 :: str (snd kv)) l).
Proof.
  induction l as [|[k v] l IH]; [constructor|]. cbn [map fst snd].
  apply (reply_cons [outer] [outer; str k] (str v) (str k)); [|exact IH]. apply (relative [outer] [outer] [str k]); [reflexivity|discriminate].
Qed.
Lemma ex_sent : sent ex_float ex_pre ex_text.
Proof.
  exists ex_settings, ex_cmds, ex_stored, (str "WFMOUTPRE"), (str "MSB"), (str "RI"). cbv zeta.
  assert (SV : forall l1 k v l2, ex_stored = l1 ++ ([str "WFMOUTPRE"; str k], v) :: l2 ->
    forallb (fun r => negb (str_eqb (nth 1 (fst r) []) (str k)) && Nat.eqb (length (fst r)) 2) l2 = true -> survives ex_stored [str "WFMOUTPRE"; str k] v).
  { intros l1 k v l2 E B. exists l1, l2. split; [exact E|]. intros q w I. rewrite forallb_forall in B. specialize (B _ I). apply andb_prop in B.
    cbn [fst] in B. destruct B as [B1 B2]. apply Nat.eqb_eq in B2. destruct q as [|a [|b [|? ?]]]; try discriminate. cbn [nth] in B1. apply negb_true_iff in B1.
    split; intros (r & X); cbn [app] in X; assert (EB : b = str k) by congruence; rewrite EB, str_eqb_refl in B1; discriminate. }
  assert (LST : forall (l : list (path * value Z)) n, l = firstn n l ++ nth n l ([], VInt 0) :: skipn (S n) l \/ (length l <= n)%nat).
  { intros l n. destruct (le_lt_dec (length l) n) as [L|L]; [right; exact L|left]. rewrite <- (firstn_skipn n l) at 1. f_equal.
    revert l L. induction n as [|n IH]; intros [|x l] L; cbn in *; try lia; [reflexivity|]. apply IH. lia. }
  Ltac entry_at n := match goal with H : (forall l1 k v l2, _), L : (forall l n, _) |- _ => destruct (L ex_stored n) as [E|E]; [apply (H _ _ _ _ E); vm_compute; reflexivity|vm_compute in E; lia] end.
  repeat match goal with |- _ /\ _ => split end.
  - discriminate.
  - repeat (constructor; [split; [discriminate|split; [repeat (constructor; [repeat split; [discriminate|..]; cbn; intuition discriminate|]); constructor|reflexivity]]|]). constructor.
  - intros l' s E. assert (S : s = last ex_settings ([], [])) by (rewrite E, last_last; reflexivity). intros v V. subst s.
    vm_compute in V. repeat (destruct v as [|? v]; [discriminate V|injection V as _ V]). destruct v; discriminate V.
  - change ex_cmds with (((58 :: join 58 [str "WFMOUTPRE"; str "BYT_NR"]) ++ 32 :: str "2") :: map (fun kv => str (fst kv) ++ 32 :: str (snd kv)) (tl ex_fields)).
    change ex_settings with (([str "WFMOUTPRE"; str "BYT_NR"], str "2") :: map (fun kv => ([str "WFMOUTPRE"; str (fst kv)], str (snd kv))) (tl ex_fields)).
    apply reply_cons; [apply absolute|]. apply (reply_fields (str "WFMOUTPRE")).
  - unfold ex_stored. cbn [ex_settings map combine fst snd ex_fields ex_values].
    repeat (apply Forall2_cons; [eapply stored_waveform; [vm_compute; discriminate|reflexivity|vm_compute; reflexivity|vm_compute; reflexivity]|]). constructor.
  - right. exists (str ":WFMOUTPRE:BYT_NR 2;BIT_NR 16;ENCDG BINARY;BN_FMT RI;BYT_OR MSB;WFID ""Ch1, DC"), (str " 3;PT_FMT Y;XUNIT ""s"";XINCR 10;XZERO -5;PT_OFF 0;YUNIT ""V"";YMULT 3;YOFF 7;YZERO 100").
    destruct nrpt_head as [NE NU].
    assert (NO : forall s, length (split_sub (str ";NR_PT") s 0) = 1%nat -> ~ occurs (str ";NR_PT") s).
    { intros s L O. change (str ";NR_PT") with (59 :: tl (str ";NR_PT")) in * . apply split_many in O. lia. }
    split; [vm_compute; reflexivity|]. split; [vm_compute; reflexivity|]. split; [apply NO; vm_compute; reflexivity|]. split; [apply NO; vm_compute; reflexivity|].
    intros a' E. assert (X : last (str ":WFMOUTPRE:BYT_NR 2;BIT_NR 16;ENCDG BINARY;BN_FMT RI;BYT_OR MSB;WFID ""Ch1, DC") 0 = 34) by (rewrite E; apply last_last). vm_compute in X. discriminate.
  - repeat (constructor; [eexists; eexists; reflexivity|]). constructor.
  - entry_at 0%nat.
  - entry_at 6%nat.
  - entry_at 4%nat.
  - split; reflexivity.
  - entry_at 3%nat.
  - split; reflexivity.
  - entry_at 5%nat.
  - entry_at 8%nat.
  - entry_at 9%nat.
  - entry_at 10%nat.
  - entry_at 12%nat.
  - entry_at 13%nat.
  - entry_at 14%nat.
  - entry_at 15%nat.
Qed.
Example C27_met : waveform_reply ex_float (fun b => Some b) ex_pre ex_codes ex_bytes.
Proof.
  exists true, ex_text, ex_text, (str "6"), [10]. cbv zeta. repeat match goal with |- _ /\ _ => split end.
  - vm_compute. reflexivity.
  - split; [|split; [|discriminate]]; apply not_occurs; vm_compute; reflexivity.
  - cbn. lia.
  - reflexivity.
  - exact ex_sent.
  - right. reflexivity.
  - discriminate.
  - repeat constructor; vm_compute; intuition discriminate.
  - reflexivity.
Qed.
Example C27_example : exists w, parse_waveform_query ex_float (fun _ _ => []) (fun b => Some b) ex_bytes false false = Ok w /\
  y_axis w = [97615; 73; 1624] /\ x_axis w = [-5; 5; 15] /\ clipping_top w = true /\ clipping_bottom w = false /\ config_string w = str "Ch1, DC".
Proof. eexists. split; [vm_compute; reflexivity|]. repeat split. Qed.
(** The repair assumes that a quoted value precedes NR_PT: without WFID there,
    a stray quote is added and the reply is rejected. *)
Theorem C27_unquoted_before_points_refuted :
  parse_waveform_query ex_float (fun _ _ => []) (fun b => Some b)
    (str ":WFMOUTPRE:WFID ""Ch1, DC"";BYT_NR 2;BIT_NR 16;ENCDG BINARY;BN_FMT RI;BYT_OR MSB;NR_PT 3;PT_FMT Y;XUNIT ""s"";XINCR 10;XZERO -5;PT_OFF 0;YUNIT ""V"";YMULT 3;YOFF 7;YZERO 100;:CURVE #16"
       ++ [127; 0; 255; 254; 2; 3] ++ [10]) false false = Err KeyError.
Proof. vm_compute. reflexivity. Qed.
Print Assumptions C27_unquoted_before_points_refuted.

(** * C28 *)
Lemma dither_ok uniform (size points : Z) codes : draws_ok uniform -> points = Z.of_nat (length codes) -> 0 <= lsb_of size codes ->
  exists us, dither uniform size (limit size) points codes = Ok (map (fun cu => dither1 (limit size) (IZR (fst cu)) (snd cu)) (combine codes us)) /\
    length us = length codes /\ Forall (fun u => (- (IZR (2 ^ lsb_of size codes) / 2) <= u < IZR (2 ^ lsb_of size codes) / 2)%R) us.
Proof.
  intros D P K. destruct (D (lsb_of size codes) points K ltac:(lia)) as [L B]. exists (uniform (lsb_of size codes) points).
  unfold dither. rewrite L, P, Nat2Z.id, Nat.eqb_refl. split; [reflexivity|]. split; [reflexivity|]. rewrite <- P. exact B.
Qed.
Lemma Forall2_combine {X Y Z'} (f : X * Y -> Z') (P : X -> Z' -> Prop) (Q : Y -> Prop) :
  (forall x y, Q y -> P x (f (x, y))) -> forall xs ys, length ys = length xs -> Forall Q ys -> Forall2 P xs (map f (combine xs ys)).
Proof.
  intros H xs. induction xs as [|x xs IH]; intros [|y ys] L F; try discriminate; [constructor|]. inversion F; subst. cbn [combine map].
  constructor; [apply H; assumption|]. apply IH; [injection L as L; exact L|assumption].
Qed.
(** With noise the clipping flags and the axis are those without; each returned
    code stays within the limits and is at most half of the granularity away
    from the transmitted code, unless that one lies beyond the limits; if the
    granularity is one, codes at or beyond a limit are returned as the limit. *)
Theorem C28_bounded : forall to_float uniform utf8 (pre : preamble R) codes bytes,
  waveform_reply to_float utf8 pre codes bytes -> draws_ok uniform ->
  let m := limit (p_size pre) in
  exists w v k, parse_waveform_query to_float uniform utf8 bytes true true = Ok w /\
    parse_waveform_query to_float uniform utf8 bytes true false = Ok v /\
    granularity (p_size pre) codes k /\
    Forall2 (fun c y => (- m <= c <= m -> (Rabs (y - IZR c) <= IZR (2 ^ k) / 2)%R) /\ (IZR (- m) <= y <= IZR m)%R /\
                        (k = 0 -> m <= c -> y = IZR m) /\ (k = 0 -> c <= - m -> y = IZR (- m))) codes (y_axis w) /\
    x_axis w = x_axis v /\ clipping_top w = clipping_top v /\ clipping_bottom w = clipping_bottom v.
Proof.
  intros to_float uniform utf8 pre codes bytes (long & text & s & digits & tail & -> & M & D & U & SN & SZ & NE & F & P) DR m.
  destruct (lsb_granularity (p_signed pre) (p_size pre) codes ltac:(lia) F) as [G K].
  destruct (dither_ok uniform (p_size pre) (p_points pre) codes DR P K) as (us & E & L & B).
  eexists. eexists. exists (lsb_of (p_size pre) codes). rewrite !(pwq to_float uniform utf8 long text s pre codes digits tail _ _ M D U SN SZ NE F P).
  rewrite E. cbn [bind]. rewrite !map_length, combine_length, L, Nat.min_id, Nat.eqb_refl. repeat (split; [first [reflexivity | exact G]|]).
  split; [|repeat split]. unfold result_of. cbn [y_axis]. fold m.
  eapply Forall2_combine; [|exact L|exact B]. intros c u BU. cbn [fst snd].
  assert (M1 : 1 <= m) by (unfold m, limit; destruct (p_size pre =? 1); lia).
  destruct (dither1_spec m c u (lsb_of (p_size pre) codes) M1 K BU) as (R1 & R2 & R3 & R4). repeat split; try assumption.
  - rewrite opp_IZR. apply Rabs_def2b in R2 || (pose proof (Rabs_left1 (dither1 m (IZR c) u)); pose proof (Rle_abs (- dither1 m (IZR c) u)); rewrite Rabs_Ropp in * ; lra).
  - pose proof (Rle_abs (dither1 m (IZR c) u)). lra.
Qed.
Print Assumptions C28_bounded.
(** The noise is added before scaling. *)
Theorem C28_scaled : forall to_float uniform utf8 (pre : preamble R) codes bytes,
  waveform_reply to_float utf8 pre codes bytes -> draws_ok uniform ->
  exists w v, parse_waveform_query to_float uniform utf8 bytes true true = Ok w /\
    parse_waveform_query to_float uniform utf8 bytes false true = Ok v /\
    y_axis v = map (fun y => (y - p_yoff pre) * p_ymult pre + p_yzero pre)%R (y_axis w).
Proof.
  intros to_float uniform utf8 pre codes bytes (long & text & s & digits & tail & -> & M & D & U & SN & SZ & NE & F & P) DR.
  destruct (lsb_granularity (p_signed pre) (p_size pre) codes ltac:(lia) F) as [G K].
  destruct (dither_ok uniform (p_size pre) (p_points pre) codes DR P K) as (us & E & L & B).
  eexists. eexists. rewrite !(pwq to_float uniform utf8 long text s pre codes digits tail _ _ M D U SN SZ NE F P).
  rewrite E. cbn [bind]. rewrite !map_length, combine_length, L, Nat.min_id, Nat.eqb_refl. repeat split.
Qed.
Print Assumptions C28_scaled.
(** "Don't add noise to clipping values" fails for an 8-bit converter that
    reports in 16-bit words: a code at the clip limit is altered. *)
Theorem C28_coarse_clipped_refuted : exists codes us, let k := lsb_of 2 codes in
  In (limit 2) codes /\ granularity 2 codes k /\ Forall (fits true 2) codes /\
  Forall (fun u => (- (IZR (2 ^ k) / 2) <= u < IZR (2 ^ k) / 2)%R) us /\ length us = length codes /\
  dither (fun _ _ => us) 2 (limit 2) (Z.of_nat (length codes)) codes = Ok [(IZR (limit 2) - 100)%R; 0%R].
Proof.
  exists [32512; 0], [(-100)%R; 0%R]. cbv zeta. repeat split.
  - left. reflexivity.
  - apply (proj1 (lsb_granularity true 2 [32512; 0] ltac:(lia) ltac:(repeat constructor; vm_compute; intuition discriminate))).
  - repeat constructor; vm_compute; intuition discriminate.
  - replace (lsb_of 2 [32512; 0]) with 8 by (vm_compute; reflexivity). change (2 ^ 8) with 256. repeat constructor; lra.
  - unfold dither. cbn [length Nat.eqb combine map fst snd]. unfold dither1. cbn [nadd nsub nle nlt nofZ nhalf NumR].
    change (limit 2) with 32512. change (- (32512)) with (-32512).
    assert (X : Rleb (32512 - / 2) (32512 + -100) = false) by (apply Rleb_false; lra). rewrite X.
    assert (X2 : Rltb (32512 + -100) (-32512 + / 2) = false) by (apply Rltb_false; lra). rewrite X2.
    assert (X3 : Rleb (32512 - / 2) (0 + 0) = false) by (apply Rleb_false; lra). rewrite X3.
    assert (X4 : Rltb (0 + 0) (-32512 + / 2) = false) by (apply Rltb_false; lra). rewrite X4.
    rewrite Rplus_0_l. reflexivity.
Qed.
Print Assumptions C28_coarse_clipped_refuted.
(** A constant zero record gets noise of the size of the whole word. *)
Theorem C28_zero_record_refuted : exists us, Forall (fun u => (- (IZR (2 ^ 8) / 2) <= u < IZR (2 ^ 8) / 2)%R) us /\
  draws_ok (fun k n => if k =? 8 then repeat 100%R (Z.to_nat n) else repeat 0%R (Z.to_nat n)) /\
  dither (fun k n => if k =? 8 then repeat 100%R (Z.to_nat n) else repeat 0%R (Z.to_nat n)) 1 (limit 1) 2 [0; 0] = Ok us /\ us = [100%R; 100%R].
Proof.
  exists [100%R; 100%R]. repeat split.
  - change (2 ^ 8) with 256. repeat constructor; lra.
  - destruct (k =? 8); apply repeat_length.
  - destruct (k =? 8) eqn:E.
    + apply Z.eqb_eq in E. subst k. change (2 ^ 8) with 256. apply Forall_forall. intros u I. apply repeat_spec in I. subst u. lra.
    + assert (PG : (1 <= IZR (2 ^ k))%R) by (apply IZR_le; assert (0 < 2 ^ k) by (apply Z.pow_pos_nonneg; lia); lia).
      apply Forall_forall. intros u I. apply repeat_spec in I. subst u. lra.
  - unfold dither. change (lsb_of 1 [0; 0]) with 8. change (8 =? 8) with true. cbv iota. change (Z.to_nat 2) with 2%nat.
    cbn [repeat length Nat.eqb combine map fst snd]. unfold dither1. cbn [nadd nsub nle nlt nofZ nhalf NumR].
    change (limit 1) with 127. change (- (127)) with (-127).
    assert (X : Rleb (127 - / 2) (0 + 100) = false) by (apply Rleb_false; lra). rewrite X.
    assert (X2 : Rltb (0 + 100) (-127 + / 2) = false) by (apply Rltb_false; lra). rewrite X2.
    rewrite Rplus_0_l. reflexivity.
Qed.
Print Assumptions C28_zero_record_refuted.
Example C28_met : draws_ok (fun k n => repeat (/ 4)%R (Z.to_nat n)).
Proof.
  intros k n K N. split; [apply repeat_length|].
  assert (PG : (1 <= IZR (2 ^ k))%R) by (apply IZR_le; assert (0 < 2 ^ k) by (apply Z.pow_pos_nonneg; lia); lia).
  apply Forall_forall. intros u I. apply repeat_spec in I. subst u. lra.
Qed.

(** * C31 *)
(** A reply is recognised exactly by the shortest forms, in capitals; other
    texts are returned as they are. *)
Theorem C31_comparison : forall v,
  (forall e, parse_comparison v = Some e <-> has_form (comparison_forms e) v) /\
  (parse_comparison v = None <-> forall e, ~ has_form (comparison_forms e) v).
Proof.
  intro v.
  assert (B : forall e, has_form (comparison_forms e) v -> parse_comparison v = Some e).
  { intros e (f & I & r & ->). destruct e; cbn [comparison_forms In] in I; repeat (destruct I as [<-|I]; [reflexivity|]); destruct I. }
  assert (S : forall e, parse_comparison v = Some e -> has_form (comparison_forms e) v).
  { intros e E. unfold parse_comparison in E. cbn [parse_enum] in E.
    repeat match type of E with (if startswith ?p v then _ else _) = _ =>
      let H := fresh in destruct (startswith p v) eqn:H; [injection E as <-; apply startswith_spec in H; destruct H as (r & ->)|] end; try discriminate.
    all: first [exists "LESS"%string; split; [cbn; tauto|eexists; reflexivity] | exists "MORE"%string; split; [cbn; tauto|eexists; reflexivity]
               | exists "EQ"%string; split; [cbn; tauto|eexists; reflexivity] | exists "UNE"%string; split; [cbn; tauto|eexists; reflexivity]
               | exists "WIT"%string; split; [cbn; tauto|eexists; reflexivity] | exists "IN"%string; split; [cbn; tauto|eexists; reflexivity]
               | exists "OUT"%string; split; [cbn; tauto|eexists; reflexivity] | idtac].
    all: match goal with H : startswith _ _ = false |- _ => vm_compute in H; discriminate H end. }
  split.
  - intro e. split; [apply S|apply B].
  - split.
    + intros N e F. apply B in F. congruence.
    + intro N. destruct (parse_comparison v) as [e|] eqn:E; [|reflexivity]. destruct (N e (S e eq_refl)).
Qed.
Print Assumptions C31_comparison.
Theorem C31_polarity : forall v,
  (forall e, parse_polarity v = Some e <-> has_form (polarity_forms e) v) /\
  (parse_polarity v = None <-> forall e, ~ has_form (polarity_forms e) v).
Proof.
  intro v.
  assert (B : forall e, has_form (polarity_forms e) v -> parse_polarity v = Some e).
  { intros e (f & I & r & ->). destruct e; cbn [polarity_forms In] in I; repeat (destruct I as [<-|I]; [reflexivity|]); destruct I. }
  assert (S : forall e, parse_polarity v = Some e -> has_form (polarity_forms e) v).
  { intros e E. unfold parse_polarity in E. cbn [parse_enum] in E.
    repeat match type of E with (if startswith ?p v then _ else _) = _ =>
      let H := fresh in destruct (startswith p v) eqn:H; [injection E as <-; apply startswith_spec in H; destruct H as (r & ->)|] end; try discriminate.
    - exists "RIS"%string. split; [cbn; tauto|eexists; reflexivity].
    - exists "POS"%string. split; [cbn; tauto|eexists; reflexivity].
    - exists "STAYSH"%string. split; [cbn; tauto|eexists; reflexivity].
    - exists "FALL"%string. split; [cbn; tauto|eexists; reflexivity].
    - exists "NEG"%string. split; [cbn; tauto|eexists; reflexivity].
    - exists "STAYSL"%string. split; [cbn; tauto|eexists; reflexivity].
    - exists "EIT"%string. split; [cbn; tauto|eexists; reflexivity]. }
  split.
  - intro e. split; [apply S|apply B].
  - split.
    + intros N e F. apply B in F. congruence.
    + intro N. destruct (parse_polarity v) as [e|] eqn:E; [|reflexivity]. destruct (N e (S e eq_refl)).
Qed.
Print Assumptions C31_polarity.
Theorem C31_sample_mode : forall v,
  (forall e, parse_sample_mode v = Some e <-> has_form (sample_mode_forms e) v) /\
  (parse_sample_mode v = None <-> forall e, ~ has_form (sample_mode_forms e) v).
Proof.
  intro v.
  assert (B : forall e, has_form (sample_mode_forms e) v -> parse_sample_mode v = Some e).
  { intros e (f & I & r & ->). destruct e; cbn [sample_mode_forms In] in I; repeat (destruct I as [<-|I]; [reflexivity|]); destruct I. }
  assert (S : forall e, parse_sample_mode v = Some e -> has_form (sample_mode_forms e) v).
  { intros e E. unfold parse_sample_mode in E. cbn [parse_enum] in E.
    repeat match type of E with (if startswith ?p v then _ else _) = _ =>
      let H := fresh in destruct (startswith p v) eqn:H; [injection E as <-; apply startswith_spec in H; destruct H as (r & ->)|] end; try discriminate.
    - exists "SAM"%string. split; [cbn; tauto|eexists; reflexivity].
    - exists "AVE"%string. split; [cbn; tauto|eexists; reflexivity].
    - exists "ENV"%string. split; [cbn; tauto|eexists; reflexivity]. }
  split.
  - intro e. split; [apply S|apply B].
  - split.
    + intros N e F. apply B in F. congruence.
    + intro N. destruct (parse_sample_mode v) as [e|] eqn:E; [|reflexivity]. destruct (N e (S e eq_refl)).
Qed.
Print Assumptions C31_sample_mode.
(** The inclusive comparisons are reported as the strict ones. *)
Theorem C31_inclusive_refuted :
  (forall v, parse_comparison v <> Some LESSEQUAL /\ parse_comparison v <> Some MOREEQUAL) /\
  parse_comparison (str "LESSEQUAL") = Some LESS /\ parse_comparison (str "MOREEQ") = Some MORE.
Proof.
  split; [|split; reflexivity]. intro v. split; intro E; apply C31_comparison in E; destruct E as (f & [] & _).
Qed.
Print Assumptions C31_inclusive_refuted.
(** Thresholds: the two logic families by name, otherwise a number. *)
Theorem C31_threshold : forall A (to_float : pystr -> result A),
  parse_threshold to_float (str "ECL") = to_float (str "-1.3") /\ parse_threshold to_float (str "TTL") = to_float (str "1.4") /\
  forall v, v <> str "ECL" -> v <> str "TTL" -> parse_threshold to_float v = to_float v.
Proof.
  intros A to_float. repeat split. intros v N1 N2. unfold parse_threshold. rewrite (str_eqb_neq _ _ N1), (str_eqb_neq _ _ N2). reflexivity.
Qed.
Print Assumptions C31_threshold.
Example C31_met :
  map parse_comparison (map str ["LESSTHAN"; "LESS"; "EQUAL"; "EQ"; "UNEQUAL"; "WITHIN"; "INRANGE"; "OUTSIDE"; "OUTRANGE"; "none"]%string) =
    [Some LESS; Some LESS; Some EQUAL; Some EQUAL; Some UNEQUAL; Some WITHIN; Some WITHIN; Some OUTSIDE; Some OUTSIDE; None] /\
  map parse_polarity (map str ["RISE"; "RIS"; "POSITIVE"; "STAYSHIGH"; "STAYSLOW"; "STAYSL"; "FALL"; "NEGATIVE"; "EITHER"; "STAYS"]%string) =
    [Some RISING; Some RISING; Some RISING; Some RISING; Some FALLING; Some FALLING; Some FALLING; Some FALLING; Some BOTH; None].
Proof. vm_compute. split; reflexivity. Qed.
