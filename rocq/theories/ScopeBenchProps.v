(** A simulated scope that meets the hypotheses of C65, to show that they can
    be met together, and a run on it. *)
From Coq Require Import String ZArith Bool QArith Qabs Qreals Reals Lqa Lia Qround List.
Import ListNotations.
From Verif Require Import Base Num PyStr PyStrProofs ScpiModel ScpiSpec ScpiProofs IOModel EquipModel TekModel TekSpec TekProofs TekProps ScopeModel ScopeSpec ScopeProofs
  ScopeTripProofs ScopeProps ScopeUseModel ScopeUseSpec ScopeAcqProps ScopeWaveProps AutoModel ScopeAutoModel ScopeAutoSpec ScopeAutoProofs ScopeFitProofs ScopeAutoProps.
Local Open Scope Z_scope.
Local Open Scope list_scope.

(** ** The instrument *)
(** It stores settings, acquires when told to run and forced to trigger, and
    keeps the settings its waveforms were taken at. *)
Record bench := Bench { b_mem : memory; b_shot : memory; b_run : bool; b_runs : nat; b_taken : Z }.
Definition lowest : Q := 1 # 10.
Definition highest : Q := 4 # 10.
Definition number (m : memory) (k : pystr) : Q := match parse_dec (look m k) with Some q => q | None => 0 end.
Definition code (m : memory) (name : pystr) (v : Q) : Z :=
  Qfloor (inject_Z (2 * 32512) * clipped (screen_height (number m (name ++ str ":SCALE")) (number m (name ++ str ":POSITION")) v)).
Definition shown_codes (m : memory) (name : pystr) : list Z := [code m name lowest; code m name highest].
Definition dec (s : string) : Q := match parse_dec (str s) with Some q => q | None => 0 end.
Definition b_pre : preamble Q := Preamble 2 true true 2 (str "Ch1, DC") (str "s") (dec "1.0E-6") (dec "0.0E0") (str "V") (dec "3.0E-5") (dec "0.0E0") (dec "0.0E0").
Definition b_record (d : bench) (name : pystr) : preamble Q * list Z := (b_pre, shown_codes (b_shot d) name).
Definition b_text : pystr := str ":WFMOUTPRE:BYT_NR 2;BIT_NR 16;ENCDG BINARY;BN_FMT RI;BYT_OR MSB;WFID ""Ch1, DC;NR_PT 2;PT_FMT Y;XUNIT ""s"";XINCR 1.0E-6;XZERO 0.0E0;PT_OFF 0;YUNIT ""V"";YMULT 3.0E-5;YOFF 0.0E0;YZERO 0.0E0".
Definition b_bytes (codes : list Z) : list Z := reply_bytes true b_text (block (str "4") (payload true 2 codes ++ [10])).
Definition scope_on_bench : device bench := Device (fun d _ => (Ok true, d)) (fun d => (Ok tt, d))
  (fun d c => (Ok tt,
    if str_eqb c (str "WAVFRM?") then d
    else if str_eqb c (str "ACQUIRE:STATE RUN") then Bench (b_mem d) (b_shot d) true (S (b_runs d)) 0
    else if str_eqb c (str "ACQUIRE:STATE STOP") then Bench (b_mem d) (b_shot d) false (b_runs d) (b_taken d)
    else let m := cut c :: b_mem d in
      if str_eqb c (str "TRIGGER FORCE") && b_run d then Bench m m false (b_runs d) 1
      else Bench m (b_shot d) (b_run d) (b_runs d) (b_taken d)))
  (fun d c =>
    if str_eqb c (str "TRIGGER:STATE?") then (Ok (str (if b_run d then "READY" else "SAVE") ++ [10]), d)
    else if str_eqb c (str "ACQUIRE:STATE?") then (Ok (str (if b_run d then "1" else "0") ++ [10]), d)
    else if str_eqb c (str "ACQUIRE:NUMACQ?") then (Ok (str_int (b_taken d) ++ [10]), d)
    else let '(r, _) := dev_query toy (b_mem d) c in (r, d))
  (fun d => (Ok (b_bytes (shown_codes (b_shot d) (look (b_mem d) (str "DATA:SOURCE")))), d)).
Definition b_reg (d : bench) (k : pystr) : pystr := look (b_mem d) k.

(** ** It acquires *)
Example bench_acquires : ScopeUseSpec.acquires scope_on_bench (fun d => b_run d = false) b_runs b_taken.
Proof.
  split; cbn [scope_on_bench dev_write dev_query].
  - intros d d' E. change (str_eqb (str "ACQUIRE:STATE RUN") (str "WAVFRM?")) with false in E. rewrite str_eqb_refl in E. apply pair_equal_spec in E. destruct E as [_ <-]. reflexivity.
  - intros d c d' N E. rewrite (str_eqb_neq c (str "ACQUIRE:STATE RUN") N) in E. apply pair_equal_spec in E. destruct E as [_ <-].
    destruct (str_eqb c (str "WAVFRM?")); [reflexivity|]. destruct (str_eqb c (str "ACQUIRE:STATE STOP")); [reflexivity|]. cbv zeta. destruct (_ && _); reflexivity.
  - intros d c a d' E. assert (d' = d) as ->.
    { destruct (str_eqb c (str "TRIGGER:STATE?")); [congruence|]. destruct (str_eqb c (str "ACQUIRE:STATE?")); [congruence|].
      destruct (str_eqb c (str "ACQUIRE:NUMACQ?")); [congruence|]. destruct (dev_query toy (b_mem d) c). congruence. }
    auto.
  - intros d a d' E S. rewrite str_eqb_refl in E. assert (A : a = str (if b_run d then "READY" else "SAVE") ++ [10]) by congruence. assert (d' = d) as -> by congruence.
    destruct (b_run d); [|reflexivity]. subst a. vm_compute in S. discriminate S.
  - intros d a d' n E P. change (str_eqb (str "ACQUIRE:NUMACQ?") (str "TRIGGER:STATE?")) with false in E.
    change (str_eqb (str "ACQUIRE:NUMACQ?") (str "ACQUIRE:STATE?")) with false in E. rewrite str_eqb_refl in E.
    assert (A : a = str_int (b_taken d) ++ [10]) by congruence. assert (d' = d) as -> by congruence. subst a. rewrite strip_str_int in P. congruence.
Qed.
Example bench_reading : reading_starts_none scope_on_bench b_runs.
Proof. intros d b d' E. injection E as _ <-. reflexivity. Qed.

(** ** It sends its waveforms *)
Lemma not_status_command k v : settable k ->
  str_eqb (k ++ str " " ++ v) (str "ACQUIRE:STATE RUN") = false /\ str_eqb (k ++ str " " ++ v) (str "ACQUIRE:STATE STOP") = false.
Proof.
  intros [P N]. assert (C : forall u, cut (str "ACQUIRE:STATE" ++ str " " ++ u) = (str "ACQUIRE:STATE", u)) by reflexivity.
  split; apply str_eqb_neq; intro E; apply (f_equal cut) in E; rewrite cut_plain in E by exact P;
    [change (str "ACQUIRE:STATE RUN") with (str "ACQUIRE:STATE" ++ str " " ++ str "RUN") in E
    |change (str "ACQUIRE:STATE STOP") with (str "ACQUIRE:STATE" ++ str " " ++ str "STOP") in E]; rewrite C in E;
    assert (K : k = str "ACQUIRE:STATE") by congruence; subst k; discriminate N.
Qed.
Lemma bench_stores f : stores scope_on_bench (words f) b_reg.
Proof.
  destruct (toy_stores f) as [W Q]. split.
  - intros d k v K V. destruct (W (b_mem d) k v K V) as (d' & E & R). destruct (not_status_command k v K) as [N1 N2].
    eexists. split; [reflexivity|]. rewrite not_wavfrm, N1, N2. cbv zeta.
    assert (M : forall b : bool, b_mem (if b then Bench (cut (k ++ str " " ++ v) :: b_mem d) (cut (k ++ str " " ++ v) :: b_mem d) false (b_runs d) 1
      else Bench (cut (k ++ str " " ++ v) :: b_mem d) (b_shot d) (b_run d) (b_runs d) (b_taken d)) = d').
    { assert (ED : cut (k ++ str " " ++ v) :: b_mem d = d') by (cbn [toy dev_write] in E; congruence). intros []; exact ED. }
    unfold b_reg. rewrite M. exact R.
  - intros d k K V. destruct (Q (b_mem d) k K V) as (d' & r & E & R & SH). exists d, r. split; [|split; [reflexivity|exact SH]].
    cbn [scope_on_bench dev_query]. destruct K as [K ST].
    assert (N : forall s, In s ["ACQUIRE:STATE"; "ACQUIRE:NUMACQ"; "TRIGGER:STATE"]%string -> str_eqb (k ++ str "?") (str s ++ str "?") = false).
    { intros s J. apply str_eqb_neq. intro X. apply app_inv_tail in X. subst k.
      repeat (destruct J as [<-|J]; [vm_compute in ST; discriminate ST|]). destruct J. }
    change (str "TRIGGER:STATE?") with (str "TRIGGER:STATE" ++ str "?"). change (str "ACQUIRE:STATE?") with (str "ACQUIRE:STATE" ++ str "?").
    change (str "ACQUIRE:NUMACQ?") with (str "ACQUIRE:NUMACQ" ++ str "?"). rewrite !N by (cbn [In]; auto). rewrite E. reflexivity.
Qed.
Definition b_fields : list (string * string) :=
  [("BYT_NR", "2"); ("BIT_NR", "16"); ("ENCDG", "BINARY"); ("BN_FMT", "RI"); ("BYT_OR", "MSB"); ("WFID", """Ch1, DC""");
   ("NR_PT", "2"); ("PT_FMT", "Y"); ("XUNIT", """s"""); ("XINCR", "1.0E-6"); ("XZERO", "0.0E0"); ("PT_OFF", "0"); ("YUNIT", """V""");
   ("YMULT", "3.0E-5"); ("YOFF", "0.0E0"); ("YZERO", "0.0E0")]%string.
Definition b_settings : list setting := map (fun kv => ([str "WFMOUTPRE"; str (fst kv)], str (snd kv))) b_fields.
Definition b_cmds : list pystr :=
  match map (fun kv => str (fst kv) ++ 32 :: str (snd kv)) b_fields with
  | c :: cs => (str ":WFMOUTPRE:" ++ c) :: cs
  | [] => []
  end.
Definition b_values : list (value Q) :=
  [VInt 2; VInt 16; VStr (str "BINARY"); VStr (str "RI"); VStr (str "MSB"); VStr (str "Ch1, DC"); VInt 2; VStr (str "Y"); VStr (str "s");
   VFloat (dec "1.0E-6"); VFloat (dec "0.0E0"); VInt 0; VStr (str "V"); VFloat (dec "3.0E-5"); VFloat (dec "0.0E0"); VFloat (dec "0.0E0")].
Definition b_stored : list (path * value Q) := combine (map fst b_settings) b_values.
Lemma b_sent : sent (to_float (fun q => q)) b_pre b_text.
Proof.
  exists b_settings, b_cmds, b_stored, (str "WFMOUTPRE"), (str "MSB"), (str "RI"). cbv zeta.
  assert (SV : forall l1 k v l2, b_stored = l1 ++ ([str "WFMOUTPRE"; str k], v) :: l2 ->
    forallb (fun r => negb (str_eqb (nth 1 (fst r) []) (str k)) && Nat.eqb (length (fst r)) 2) l2 = true -> survives b_stored [str "WFMOUTPRE"; str k] v).
  { intros l1 k v l2 E B. exists l1, l2. split; [exact E|]. intros q w I. rewrite forallb_forall in B. specialize (B _ I). apply andb_prop in B.
    cbn [fst] in B. destruct B as [B1 B2]. apply Nat.eqb_eq in B2. destruct q as [|a [|b [|? ?]]]; try discriminate. cbn [nth] in B1. apply negb_true_iff in B1.
    split; intros (r & X); cbn [app] in X; assert (EB : b = str k) by congruence; rewrite EB, str_eqb_refl in B1; discriminate. }
  assert (LST : forall (l : list (path * value Q)) n, l = firstn n l ++ nth n l ([], VInt 0) :: skipn (S n) l \/ (length l <= n)%nat).
  { intros l n. destruct (Compare_dec.le_lt_dec (length l) n) as [L|L]; [right; exact L|left]. rewrite <- (firstn_skipn n l) at 1. f_equal.
    revert l L. induction n as [|n IH]; intros [|x l] L; cbn in *; try lia; [reflexivity|]. apply IH. lia. }
  Ltac entry_at' n := match goal with H : (forall l1 k v l2, _), L : (forall l n, _) |- _ => destruct (L b_stored n) as [E|E]; [apply (H _ _ _ _ E); vm_compute; reflexivity|vm_compute in E; lia] end.
  repeat match goal with |- _ /\ _ => split end.
  - discriminate.
  - repeat (constructor; [split; [discriminate|split; [repeat (constructor; [repeat split; [discriminate|..]; cbn; intuition discriminate|]); constructor|reflexivity]]|]). constructor.
  - intros l' s E. assert (S : s = last b_settings ([], [])) by (rewrite E, last_last; reflexivity). intros v V. subst s.
    vm_compute in V. repeat (destruct v as [|? v]; [discriminate V|injection V as _ V]). destruct v; discriminate V.
  - change b_cmds with (((58 :: join 58 [str "WFMOUTPRE"; str "BYT_NR"]) ++ 32 :: str "2") :: map (fun kv => str (fst kv) ++ 32 :: str (snd kv)) (tl b_fields)).
    change b_settings with (([str "WFMOUTPRE"; str "BYT_NR"], str "2") :: map (fun kv => ([str "WFMOUTPRE"; str (fst kv)], str (snd kv))) (tl b_fields)).
    apply reply_cons; [apply absolute|]. apply (reply_fields (str "WFMOUTPRE")).
  - unfold b_stored. cbn [b_settings map combine fst snd b_fields b_values].
    repeat (apply Forall2_cons; [eapply stored_waveform; [vm_compute; discriminate|reflexivity|vm_compute; reflexivity|vm_compute; reflexivity]|]). constructor.
  - right. exists (str ":WFMOUTPRE:BYT_NR 2;BIT_NR 16;ENCDG BINARY;BN_FMT RI;BYT_OR MSB;WFID ""Ch1, DC"),
      (str " 2;PT_FMT Y;XUNIT ""s"";XINCR 1.0E-6;XZERO 0.0E0;PT_OFF 0;YUNIT ""V"";YMULT 3.0E-5;YOFF 0.0E0;YZERO 0.0E0").
    assert (NO : forall s, length (split_sub (str ";NR_PT") s 0) = 1%nat -> ~ occurs (str ";NR_PT") s).
    { intros s L O. change (str ";NR_PT") with (59 :: tl (str ";NR_PT")) in * . apply split_many in O. lia. }
    split; [vm_compute; reflexivity|]. split; [vm_compute; reflexivity|]. split; [apply NO; vm_compute; reflexivity|]. split; [apply NO; vm_compute; reflexivity|].
    intros a' E. assert (X : last (str ":WFMOUTPRE:BYT_NR 2;BIT_NR 16;ENCDG BINARY;BN_FMT RI;BYT_OR MSB;WFID ""Ch1, DC") 0 = 34) by (rewrite E; apply last_last). vm_compute in X. discriminate.
  - repeat (constructor; [eexists; eexists; reflexivity|]). constructor.
  - entry_at' 0%nat.
  - entry_at' 6%nat.
  - entry_at' 4%nat.
  - split; reflexivity.
  - entry_at' 3%nat.
  - split; reflexivity.
  - entry_at' 5%nat.
  - entry_at' 8%nat.
  - entry_at' 9%nat.
  - entry_at' 10%nat.
  - entry_at' 12%nat.
  - entry_at' 13%nat.
  - entry_at' 14%nat.
  - entry_at' 15%nat.
Qed.
Lemma code_range m name v : -32512 <= code m name v <= 32512.
Proof.
  unfold code. set (x := screen_height _ _ _).
  assert (B : (- (1 # 2) <= clipped x <= 1 # 2)%Q).
  { unfold clipped. destruct (Qle_bool (1 # 2) x) eqn:E1; [split; discriminate|]. destruct (Qle_bool x (- (1 # 2))) eqn:E2; [split; discriminate|].
    split; apply Qnot_lt_le; intro L; apply Qlt_le_weak, Qle_bool_iff in L; congruence. }
  set (y := (inject_Z (2 * 32512) * clipped x)%Q).
  assert (Y : (inject_Z (-32512) <= y <= inject_Z 32512)%Q).
  { unfold y. destruct B as [B1 B2].
    split; [apply (Qle_trans _ (inject_Z (2 * 32512) * - (1 # 2))); [discriminate|]|apply (Qle_trans _ (inject_Z (2 * 32512) * (1 # 2))); [|discriminate]];
      apply Qmult_le_l; (reflexivity || assumption). }
  destruct Y as [Y1 Y2]. apply Qfloor_resp_le in Y1, Y2. rewrite Qfloor_Z in Y1, Y2. lia.
Qed.
Lemma bench_reply m name : waveform_reply (to_float (fun q => q)) (fun b => Some b) b_pre (shown_codes m name) (b_bytes (shown_codes m name)).
Proof.
  exists true, b_text, b_text, (str "4"), [10]. cbv zeta. pose proof (code_range m name lowest) as R1. pose proof (code_range m name highest) as R2.
  repeat match goal with |- _ /\ _ => split end.
  - reflexivity.
  - split; [apply not_occurs; vm_compute; reflexivity|]. split; [|discriminate].
    intros (a & b & E). unfold shown_codes in E. change (p_msb b_pre) with true in E. change (p_size b_pre) with 2 in E.
    cbn [payload flat_map wire block] in E. unfold wire, block in E. change (Z.to_nat 2) with 2%nat in E. cbn [bytes_le rev app] in E.
    destruct a as [|x a]; [discriminate E|]. apply (f_equal (@length Z)) in E. cbn [length app] in E. rewrite !app_length in E.
    change (length (curve_mark true)) with 8%nat in E. change (length (str "4")) with 1%nat in E. cbn [length] in E. lia.
  - cbn. lia.
  - reflexivity.
  - exact b_sent.
  - right. reflexivity.
  - discriminate.
  - repeat constructor; cbn [p_signed b_pre p_size fits] in *; change (2 ^ (8 * 2 - 1)) with 32768; lia.
  - reflexivity.
Qed.
Example bench_sends : forall f, sends_waveforms (to_float (fun q => q)) (fun b => Some b) scope_on_bench f b_reg b_record.
Proof.
  intro f. split.
  - apply bench_stores.
  - intros d name k v d' J E c. cbn [scope_on_bench dev_write] in E. apply pair_equal_spec in E. destruct E as [_ <-].
    assert (H : hd 0 (k ++ str " " ++ v) <> 84).
    { destruct J as [<-|J]; [discriminate|]. unfold transfer in J. destruct f; cbn [map fst app In active_setting] in J;
        repeat (destruct J as [<-|J]; [discriminate|]); destruct J. }
    rewrite not_wavfrm. destruct (str_eqb _ (str "ACQUIRE:STATE RUN")); [reflexivity|]. destruct (str_eqb _ (str "ACQUIRE:STATE STOP")); [reflexivity|].
    cbv zeta. rewrite (str_eqb_neq _ (str "TRIGGER FORCE")); [reflexivity|]. intro X. rewrite X in H. apply H. reflexivity.
  - intro d. exists d, (b_bytes (shown_codes (b_shot d) (look (b_mem d) (str "DATA:SOURCE")))), d.
    split; [reflexivity|]. split; [reflexivity|]. split; [reflexivity|]. split; [reflexivity|].
    intros name F. assert (N : look (b_mem d) (str "DATA:SOURCE") = name).
    { rewrite Forall_forall in F. apply (F (str "DATA:SOURCE", name)). right. right. left. reflexivity. }
    rewrite N. apply bench_reply.
Qed.

(** ** It shows the signal *)
Lemma floor_near x : (Qabs (inject_Z (Qfloor x) - x) <= 1)%Q.
Proof.
  pose proof (Qfloor_le x) as L. pose proof (Qlt_floor x) as U. rewrite inject_Z_plus in U. apply Qabs_Qle_condition.
  change (inject_Z 1) with 1%Q in U. revert L U. generalize (inject_Z (Qfloor x)). intros q L U. split; lra.
Qed.
Lemma height_mono s p u v : (0 < s)%Q -> (u <= v)%Q -> (screen_height s p u <= screen_height s p v)%Q.
Proof.
  intros P L. unfold screen_height. unfold Qdiv. apply Qmult_le_compat_r; [|discriminate]. apply Qplus_le_compat; [|apply Qle_refl].
  apply Qmult_le_compat_r; [exact L|]. apply Qlt_le_weak, Qinv_lt_0_compat, P.
Qed.
Lemma clipped_mono x y : (x <= y)%Q -> (clipped x <= clipped y)%Q.
Proof.
  intro L. unfold clipped. destruct (Qle_bool (1 # 2) x) eqn:A, (Qle_bool (1 # 2) y) eqn:B, (Qle_bool x (- (1 # 2))) eqn:C, (Qle_bool y (- (1 # 2))) eqn:E;
    repeat match goal with
    | H : Qle_bool _ _ = true |- _ => apply Qle_bool_iff in H
    | H : Qle_bool _ _ = false |- _ => apply Bool.not_true_iff_false in H; rewrite Qle_bool_iff in H; apply Qnot_le_lt in H
    end; lra.
Qed.

Lemma code_mono m name u v : (0 < number m (name ++ str ":SCALE"))%Q -> (u <= v)%Q -> code m name u <= code m name v.
Proof.
  intros P L. unfold code. apply Qfloor_resp_le. apply Qmult_le_l; [reflexivity|]. apply clipped_mono, height_mono; assumption.
Qed.
Lemma shot_taken mem shot run runs taken nx lg n : exists lg',
  single scope_on_bench sleep true 20 (World (Bench mem shot run runs taken) nx lg (Some n)) =
  (Ok tt, World (let m := (str "TRIGGER", str "FORCE") :: (str "ACQUIRE:STOPAFTER", str "SEQUENCE") :: mem in Bench m m false (S runs) 1) nx lg' (Some n)).
Proof. destruct run; eexists; vm_compute; reflexivity. Qed.
Lemma look_past m k : k <> str "TRIGGER" -> k <> str "ACQUIRE:STOPAFTER" ->
  look ((str "TRIGGER", str "FORCE") :: (str "ACQUIRE:STOPAFTER", str "SEQUENCE") :: m) k = look m k.
Proof. intros A B. cbn [look]. rewrite (str_eqb_neq k _ A), (str_eqb_neq k _ B). reflexivity. Qed.

Example bench_displays i : displays scope_on_bench b_reg b_record (Analog i) sleep lowest highest.
Proof.
  split. intros n [[mem shot run runs taken] nx lg inst] I. cbn [w_inst] in I. subst inst. destruct (shot_taken mem shot run runs taken nx lg n) as (lg' & E).
  eexists. split; [exact E|]. cbn [w_inst w_dev b_reg b_record b_mem b_shot fst snd]. unfold b_reg, b_record. cbn [b_mem b_shot fst snd].
  split; [reflexivity|]. split.
  - intros k N. apply look_past; intros ->; apply N; cbn [In]; auto.
  - intros s p SP S P. split; [|discriminate]. change (limit (p_size b_pre)) with 32512. set (m := _ :: _ :: mem).
    assert (NS : number m (alias (Analog i) ++ str ":SCALE") = s).
    { unfold number, m. rewrite look_past by discriminate. change (alias (Analog i) ++ str ":SCALE") with (scale_key (Analog i)). rewrite S. reflexivity. }
    assert (NP : number m (alias (Analog i) ++ str ":POSITION") = p).
    { unfold number, m. rewrite look_past by discriminate. change (alias (Analog i) ++ str ":POSITION") with (position_key (Analog i)). rewrite P. reflexivity. }
    exists (code m (alias (Analog i)) lowest), (code m (alias (Analog i)) highest). split; [left; reflexivity|]. split; [right; left; reflexivity|].
    assert (L : code m (alias (Analog i)) lowest <= code m (alias (Analog i)) highest) by (apply code_mono; [rewrite NS; exact SP|discriminate]).
    split; [intros c [<-|[<-|[]]]; lia|]. split; unfold code; rewrite NS, NP; apply floor_near.
Qed.

(** ** C65 on it *)
Definition b_start (scale : string) : world bench := World (Bench [(str "CH1:SCALE", str scale); (str "CH1:POSITION", str "0"); (str "HORIZONTAL:RECORDLENGTH", str "10000")]
  [] true 0 0) 1 [] (Some 0%nat).
Lemma exact_rounds : rounds (fun q => q).
Proof.
  split; [intros x y E; exact E|]. intros x _. unfold Qminus. rewrite Qplus_opp_r. change (Qabs 0) with 0%Q.
  assert (0 <= Qabs x)%Q by apply Qabs_nonneg. assert (0 <= (1 # 1000000000000000) * Qabs x)%Q by (apply Qmult_le_0_compat; [discriminate|assumption]).
  apply (Qle_trans _ ((1 # 1000000000000000) * Qabs x + 0)); [lra|apply Qplus_le_r; discriminate].
Qed.
(** All hypotheses of both theorems hold, and so do their conclusions. *)
Example C65_met f : exists w' scale position,
  autoscale_channel scope_on_bench (fun q => q) (fun _ _ => []) (fun b => Some b) f (str "CH1") None (b_start "0.1") = (Ok tt, w') /\
  stands_at b_reg (w_dev w') (Analog 1) scale position /\ fits_screen scale position lowest highest (45 # 100) (74 # 100) /\
  (1 <= b_runs (w_dev w') <= 2)%nat /\ b_reg (w_dev w') (str "HORIZONTAL:RECORDLENGTH") = str "10000".
Proof.
  change (str "CH1") with (alias (Analog 1)).
  destruct (C65_converges _ scope_on_bench (fun q => q) (fun _ _ => []) (fun b => Some b) f b_reg b_record 1 None lowest highest 0 (b_start "0.1") (1 # 10) 0 10000
    (bench_sends f) exact_rounds (bench_displays 1) eq_refl) as (w' & s & p & E & ST & FI & RL & RN & _).
  - repeat split; cbn; repeat constructor; discriminate.
  - reflexivity.
  - split; discriminate.
  - discriminate.
  - repeat split; discriminate.
  - destruct (C65_placed _ scope_on_bench (fun q => q) (fun _ _ => []) (fun b => Some b) f b_reg b_record _ _ _ (Analog 1) None 0 (b_start "0.1") w'
      (bench_sends f) bench_acquires bench_reading ltac:(discriminate) eq_refl E) as (k & v & pts & K & _ & _ & RV & _ & RW & _).
    exists w', s, p. split; [exact E|]. split; [exact ST|]. split; [exact FI|]. split; [|exact RL].
    split; [rewrite RW, RV; apply K|exact (RN _ _ _ bench_acquires bench_reading ltac:(discriminate))].
Qed.
(** The run itself: two acquisitions, from 0.1 V to 37.5 mV per division. *)
Example C65_run :
  let '(res, w) := autoscale_channel scope_on_bench (fun q => q) (fun _ _ => []) (fun b => Some b) F456 (str "CH1") None (b_start "0.1") in
  res = Ok tt /\ b_runs (w_dev w) = 2%nat /\ b_reg (w_dev w) (str "CH1:SCALE") = str "3.749962E-02".
Proof. vm_compute. split; [reflexivity|]. split; reflexivity. Qed.
