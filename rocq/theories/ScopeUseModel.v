(** Model of the remaining public methods of the scopes: construction, access to
    channels, read_waveform and force (equipment/scope.py,
    equipment/tektronix/family_mso4000.py, family_mso456.py). *)
From Coq Require Import String ZArith Bool QArith List.
Import ListNotations.
From Verif Require Import Base Num PyStr IOModel EquipModel TekModel ScopeModel ScopeSpec.
Local Open Scope Z_scope.
Local Open Scope io_scope.

Section Use.
Context {D : Type}.
Variable dev : device D.

(** scope.py:417-425 [Scope.__init__] with the [_init_channels] of the family:
    the attributes are empty dictionaries until it returns.  The measured
    bandwidth [max_bandwidth] is dropped ([fl] is rounding to floats). *)
Variable fl : Q -> Q.
Variable unicode_digit : Z -> bool.
Definition init_channels (f : family) : io D scope :=
  match f with
  | F4000 => init_4000 dev fl unicode_digit
  | F456 => init_456 dev fl unicode_digit
  end.
Definition new_scope (f : family) (address : pystr) : io D scope :=
  construct dev address ;> init_channels f.

(** scope.py:435-447 [ch], 449-461 [d]: the channel is represented by its
    alias; family_mso4000.py:185-189, family_mso456.py:190-195. *)
Definition ch (s : scope) (index : Z) : result pystr :=
  if existsb (Z.eqb index) (channels s) then Ok (str "CH" ++ str_int index) else Err KeyError.
Definition d (s : scope) (index : Z) : result pystr :=
  if existsb (Z.eqb index) (digitals s) then Ok (str "D" ++ str_int index) else Err KeyError.

(** family_mso4000.py:460-461, family_mso456.py:444-445 [force] *)
Definition force : io D unit := send dev (str "TRIGGER FORCE").

(** family_mso4000.py:52-70, family_mso456.py:57-78 [read_waveform] *)
Context {A : Type} `{Num A}.
Variable to_float : pystr -> result A.
Variable uniform : Z -> Z -> list A.
Variable utf8 : list Z -> option pystr.
Definition fetch (f : family) (name : pystr) : io D (list Z) :=
  match f with
  | F4000 => fetch_4000 dev name
  | F456 => fetch_456 dev name
  end.
Definition read_waveform (f : family) (name : pystr) (raw add_noise : bool) : io D (waveform A) :=
  data <~ fetch f name ;;
  lift (parse_waveform_query to_float uniform utf8 data raw add_noise).
End Use.
