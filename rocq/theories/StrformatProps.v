(** C16, C17, C32: text produced for and read from numbers. *)
From Coq Require Import String ZArith Bool QArith Qabs Lia Lqa List.
Import ListNotations.
From Verif Require Import Base PyStr PyStrProofs StrformatModel StrformatProofs.
Local Open Scope Z_scope.

(** * C16: metric_prefix *)

(** The text is "<mantissa> <prefix><unit>"; the prefix is the first one whose
    threshold the magnitude reaches (all earlier ones are too large), or else
    the last; the mantissa read back as a number is value/prefix up to half a
    unit of the last printed digit (and the rounding of the division). *)
Theorem C16_text_decodes : forall rnd v unit w p w' p' threshold tab s,
  (forall x, Qabs (rnd x - x) <= (1 # 1000000000) * Qabs x)%Q -> (forall e, In e tab -> (0 < snd e)%Q) ->
  metric_prefix rnd (Fin v) unit (w, p) (w', p') threshold tab = Ok s ->
  exists i nm f text t,
    nth_error tab i = Some (nm, f) /\ s = text ++ [32] ++ nm ++ unit /\ parse_dec text = Some t /\
    (forall j nm' f', (j < i)%nat -> nth_error tab j = Some (nm', f') -> (Qabs' v < rnd (threshold * f'))%Q) /\
    (((rnd (threshold * f) <= Qabs' v)%Q /\
      (Qabs (t - v / f) <= (1 # 2) * Qpow10 (- Z.of_nat p) + (1 # 1000000000) * Qabs (v / f))%Q) \/
     (i + 1 = length tab)%nat /\ (Qabs' v < rnd (threshold * f))%Q /\
      (Qabs (t - v / f) <= (1 # 2) * Qpow10 (- Z.of_nat p') + (1 # 1000000000) * Qabs (v / f))%Q).
Proof. exact metric_decode. Qed.
Print Assumptions C16_text_decodes.

(** Constant width with the default arguments, for every float from -9.9e15 to
    9.9e16 and for infinities and NaN; [near_default] admits the binary
    approximations of 1e12 ... 1e-12. *)
Theorem C16_constant_width : forall rnd tab v unit,
  (forall x, Qabs (rnd x - x) <= (1 # 1000000000) * Qabs x)%Q -> near_default tab ->
  (forall q, v = Fin q -> (- (99 # 1) * Qpow10 14 <= q)%Q /\ (q <= (99 # 1) * Qpow10 15)%Q) ->
  exists s, metric_prefix rnd v unit (8, 2)%nat (8, 3)%nat 2 tab = Ok s /\ length s = (10 + length unit)%nat.
Proof.
  intros rnd tab v unit Hr Hn Hv. destruct v as [q| | |].
  - destruct (Hv q eq_refl). apply metric_width; assumption.
  - apply metric_nonfinite. discriminate.
  - apply metric_nonfinite. discriminate.
  - apply metric_nonfinite. discriminate.
Qed.
Print Assumptions C16_constant_width.

(** Beyond that range the text grows. *)
Definition exact_table : list (pystr * Q) := map (fun e => (fst e, Qpow10 (snd e))) default_prefixes.
Theorem C16_wide_refuted :
  metric_prefix (fun x => x) (Fin (- (1 # 1) * Qpow10 16)) (str "V") (8, 2)%nat (8, 3)%nat 2 exact_table
  = Ok (str "-10000.00 TV").
Proof. vm_compute. reflexivity. Qed.
Print Assumptions C16_wide_refuted.

Example C16_witness_table : near_default exact_table.
Proof.
  unfold near_default, exact_table. repeat constructor; cbn [fst snd]; vm_compute; intros H; discriminate H.
Qed.
Example C16_witness :
  metric_prefix (fun x => x) (Fin (1500 # 1)) (str "V") (8, 2)%nat (8, 3)%nat 2 exact_table = Ok (str " 1500.00  V") /\
  metric_prefix (fun x => x) (Fin (-(2 # 1000000000000000))) (str "s") (8, 2)%nat (8, 3)%nat 2 exact_table = Ok (str "  -0.002 ps").
Proof. split; vm_compute; reflexivity. Qed.

(** An empty prefix dictionary raises. *)
Theorem C16_no_prefixes : forall rnd v unit sp sps threshold,
  metric_prefix rnd (Fin v) unit sp sps threshold [] = Err IndexError.
Proof. reflexivity. Qed.
Print Assumptions C16_no_prefixes.

(** * C17: time_str *)
(** [field text n]: a decimal field of at least two characters, reading [n]. *)
Definition field (text : pystr) (n : Z) : Prop := parse_int text = Some n /\ (0 <= n < 60 -> length text = 2%nat).

Lemma field_ok n : field (zpad 2 (str_int n)) n.
Proof. split; [apply parse_zpad_int|]. intros H. apply field_length. lia. Qed.

Theorem C17_whole_seconds : forall d, exists tm ts th tm' m s,
  time_str d false false = tm ++ [58] ++ ts /\
  time_str d false true = th ++ [58] ++ tm' ++ [58] ++ ts /\
  field tm m /\ field ts s /\ field th (m / 60) /\ field tm' (m mod 60) /\
  60 * m + s = Qnum d / Zpos (Qden d) /\ 0 <= s < 60 /\ 0 <= m mod 60 < 60.
Proof.
  intros d. destruct (time_int d) as (m & s & H1 & H2 & H3 & H4).
  do 4 eexists. exists m, s. rewrite H3, H4. split; [reflexivity|]. split; [reflexivity|].
  repeat (split; [apply field_ok|]). unfold qfloor in H1. split; [lia|]. split; [lia|]. apply Z.mod_pos_bound. lia.
Qed.
Print Assumptions C17_whole_seconds.

(** With sub-seconds: seconds are printed as ss.cc; the fields add up to the
    duration within 5 ms; the field reads 60.00 exactly when the seconds part
    is at least 59.995. *)
Theorem C17_centiseconds : forall d, exists tm th tm' ts tc m c,
  time_str d true false = tm ++ [58] ++ ts ++ [46] ++ tc /\
  time_str d true true = th ++ [58] ++ tm' ++ [58] ++ ts ++ [46] ++ tc /\
  parse_int tm = Some m /\ parse_int th = Some (m / 60) /\ parse_int tm' = Some (m mod 60) /\
  parse_int ts = Some (c / 100) /\ parse_int tc = Some (c mod 100) /\ length ts = 2%nat /\ length tc = 2%nat /\
  (Qabs (inject_Z m * 60 + inject_Z c * (1 # 100) - d) <= 1 # 200)%Q /\
  0 <= c <= 6000 /\
  (inject_Z m * 60 <= d < inject_Z m * 60 + 60)%Q /\
  (c = 6000 <-> (inject_Z m * 60 + (59995 # 1000) <= d)%Q).
Proof.
  intros d. destruct (time_sub d) as (m & c & H1 & H2 & H3 & H4 & H5 & H6).
  do 5 eexists. exists m, c. rewrite H3, H4. unfold centi.
  split; [reflexivity|]. split; [reflexivity|]. do 5 (split; [apply parse_zpad_int|]).
  split; [apply field_length; split; [apply Z.div_pos; lia|apply Z.div_lt_upper_bound; lia]|].
  split; [apply field_length; apply Z.mod_pos_bound; lia|].
  split; [exact H1|]. split; [exact H2|]. split; [exact H6|exact H5].
Qed.
Print Assumptions C17_centiseconds.

(** So the seconds field is not always below 60. *)
Theorem C17_sixty_seconds_refuted : time_str (59996 # 1000) true true = str "00:00:60.00".
Proof. reflexivity. Qed.
Print Assumptions C17_sixty_seconds_refuted.

Example C17_witness : time_str (3723 # 1) false true = str "01:02:03" /\ time_str (372350 # 100) true false = str "62:03.50".
Proof. split; reflexivity. Qed.

(** elapsed_str: without an end it shows the time until now on the clock that
    matches the type of start (datetime.now for a datetime, perf_counter for a
    float) and does not look at the other clock; with an end it looks at
    neither; any other start is a TypeError. *)
Theorem C17_elapsed_clock : forall t now_datetime now_perf other end_ sub hours,
  elapsed_str (Datetime t) None now_datetime other sub hours = Ok (time_str (now_datetime - t) sub hours) /\
  elapsed_str (Float t) None other now_perf sub hours = Ok (time_str (now_perf - t) sub hours) /\
  elapsed_str (Datetime t) (Some end_) now_datetime now_perf sub hours = Ok (time_str (end_ - t) sub hours) /\
  elapsed_str (Float t) (Some end_) now_datetime now_perf sub hours = Ok (time_str (end_ - t) sub hours) /\
  elapsed_str OtherType None now_datetime now_perf sub hours = Err TypeError.
Proof. intros. repeat split. Qed.
Print Assumptions C17_elapsed_clock.
Example C17_witness_elapsed : elapsed_str (Float (5 # 2)) None 0 (125 # 2) true true = Ok (str "00:01:00.00").
Proof. vm_compute. reflexivity. Qed.

(** * C32: numbers sent as f"{x:.6E}" and read back with float() *)
Theorem C32_relative_error : forall x, exists v, parse_dec (sci 6 x) = Some v /\
  (Qabs (v - x) <= (5 # 10000000) * Qabs x)%Q.
Proof.
  intros x. destruct (sci_read 6 x) as (v & Hv & Hb). exists v. split; [exact Hv|].
  eapply Qle_trans; [exact Hb|]. change (Qpow10 (- Z.of_nat 6)) with (1 # 1000000)%Q. lra.
Qed.
Print Assumptions C32_relative_error.

(** A double is within 2^-53 of the decimal it was written as, so numbers of up
    to seven significant digits come back as the same decimal, hence as the
    same double. *)
Theorem C32_seven_digits_exact : forall k j x, 0 < k < 10000000 ->
  (Qabs (Qabs' x - inject_Z k * Qpow10 j) <= (1 # 1000000000) * (inject_Z k * Qpow10 j))%Q ->
  exists v, parse_dec (sci 6 x) = Some v /\
    (v == (if Qneg x then - (1) else 1) * (inject_Z k * Qpow10 j))%Q.
Proof.
  intros k j x Hk Hx. apply sci_exact; [change (pow10 6) with 1000000; lia|].
  eapply Qle_lt_trans; [exact Hx|]. change (Qpow10 (- Z.of_nat 6)) with (1 # 1000000)%Q.
  assert (0 < inject_Z k * Qpow10 j)%Q; [|lra].
  pose proof (Qpow10_pos j). assert (0 < inject_Z k)%Q by (change 0%Q with (inject_Z 0); rewrite <- Zlt_Qlt; lia). nra.
Qed.
Print Assumptions C32_seven_digits_exact.

Theorem C32_zero : forall x, (x == 0)%Q -> exists v, parse_dec (sci 6 x) = Some v /\ (v == 0)%Q.
Proof.
  intros x Hx. destruct (sci_read 6 x) as (v & Hv & Hb). exists v. split; [exact Hv|].
  rewrite Hx in Hb. setoid_replace (v - 0)%Q with v in Hb by ring.
  setoid_replace ((1 # 2) * Qpow10 (- Z.of_nat 6) * Qabs 0)%Q with 0%Q in Hb by reflexivity.
  apply Qabs_Qle_condition in Hb. lra.
Qed.
Print Assumptions C32_zero.

(** Eight digits do not survive. *)
Theorem C32_eight_digits_refuted : exists x v, parse_dec (sci 6 x) = Some v /\ ~ (v == x)%Q /\ (x == 12345678 # 1)%Q.
Proof. exists (12345678 # 1), (12345680 # 1)%Q. split; [vm_compute; reflexivity|]. split; [intros H; discriminate H|reflexivity]. Qed.
Print Assumptions C32_eight_digits_refuted.

Example C32_witness : sci 6 (5 # 1000) = str "5.000000E-03" /\ parse_dec (str "5.000000E-03") = Some (5000000 # 1000000000)%Q.
Proof. split; vm_compute; reflexivity. Qed.
