(** Model of hardware_tools/equipment/equipment.py [Equipment] and of
    hardware_tools/equipment/utility.py [install_driver], [connect]. *)
From Coq Require Import String ZArith Bool List.
Import ListNotations.
From Verif Require Import Base PyStr ScpiModel IOModel.
Local Open Scope Z_scope.
Local Open Scope io_scope.

Section Equipment.
Context {D : Type}.
Variable dev : device D.

(** equipment.py:27-49 [__init__].  The attributes address and name are only
    used in messages; encoding is not modelled; rm=None uses the default
    resource manager. *)
Definition construct (address : pystr) : io D unit :=
  set_inst None ;>
  r <~ open_resource dev address ;;
  if snd r then set_inst (Some (fst r)) else raise NotImplementedError.

(** equipment.py:54-57 [close]; if the resource fails to close the exception
    leaves the attribute set. *)
Definition close : io D unit :=
  i <~ get_inst ;;
  match i with
  | Some r => close_resource dev r ;> set_inst None
  | None => ret tt
  end.
(** equipment.py:51-52 [__del__], 62-63 [__exit__]. *)
Definition del : io D unit := close.
Definition exit : io D unit := close.

(** equipment.py:68-74 [send]; None has no attribute write. *)
Definition send (cmd : pystr) : io D unit :=
  i <~ get_inst ;;
  match i with
  | Some r => write_resource dev r cmd
  | None => raise AttributeError
  end.
(** equipment.py:76-80 [reset] *)
Definition reset : io D unit := send (str "*RST") ;> send (str "*WAI").
(** equipment.py:82-91 [ask] *)
Definition ask (cmd : pystr) : io D pystr :=
  i <~ get_inst ;;
  match i with
  | Some r => s <~ query_resource dev r cmd ;; ret (strip s)
  | None => raise AttributeError
  end.
(** equipment.py:132-138 [receive] *)
Definition receive : io D (list Z) :=
  i <~ get_inst ;;
  match i with
  | Some r => raw_resource dev r
  | None => raise AttributeError
  end.

(** equipment.py:93-130 [ask_and_wait].  [timeout] is int(timeout / interval), an integer
    (0.05 s per poll); the list [seen] only goes into the message. *)
Definition mem (s : pystr) (l : list pystr) : bool := existsb (str_eqb s) l.
Definition poll (command : pystr) (additional : option pystr) : io D pystr :=
  match additional with
  | Some c => send c ;> ask command
  | None => ask command
  end.
Fixpoint wait_loop (fuel : nat) (command : pystr) (states : list pystr) (additional : option pystr)
  (timeout : Z) (state : pystr) : io D (Z * pystr) :=
  if negb (mem state states) && (0 <=? timeout) then
    match fuel with
    | O => raise OutOfFuel
    | S fuel =>
        sleep ;>
        state <~ poll command additional ;;
        wait_loop fuel command states additional (timeout - 1) state
    end
  else ret (timeout, state).
Definition ask_and_wait (command : pystr) (states : list pystr) (timeout : Z) (additional : option pystr) : io D pystr :=
  state <~ poll command additional ;;
  '(timeout, state) <~ wait_loop (Z.to_nat (timeout + 2)) command states additional timeout state ;;
  if timeout <? 0 then raise TimeoutError else ret state.

(** ** utility.py *)
(** [_CLASSES]: a dictionary from regular expressions to drivers. *)
Variable driver : Type.
Definition registry := list (pystr * driver).
(** utility.py:21-30 [install_driver]: assigning to an existing key keeps its
    position. *)
Fixpoint register (reg : registry) (regex : pystr) (d : driver) : registry :=
  match reg with
  | [] => [(regex, d)]
  | (k, d') :: reg' => if str_eqb k regex then (k, d) :: reg' else (k, d') :: register reg' regex d
  end.
Definition install_driver (reg : registry) (regex : pystr) (d : driver) (is_equipment : bool) : result registry :=
  if is_equipment then Ok (register reg regex d) else Err TypeError.

(** re.match(regex, identity): any function, it may raise re.error. *)
Variable re_match : pystr -> pystr -> result bool.
(** The constructor of a driver. *)
Variable new_driver : driver -> pystr -> io D unit.

(** utility.py:70-73 *)
Fixpoint dispatch (reg : registry) (identity : pystr) : result driver :=
  match reg with
  | [] => Err LookupError
  | (regex, d) :: reg' =>
      match re_match regex identity with
      | Err e => Err e
      | Ok true => Ok d
      | Ok false => dispatch reg' identity
      end
  end.
(** utility.py:62-69: the [with] statement closes the probing resource on every path. *)
Definition probe (address : pystr) : io D pystr :=
  r <~ open_resource dev address ;;
  finally
    (if snd r then
       write_resource dev (fst r) (str "*IDN?") ;>
       s <~ query_resource dev (fst r) (str "*IDN?") ;;
       ret (strip s)
     else raise NotImplementedError)
    (close_resource dev (fst r)).
(** utility.py:47-74 [connect] *)
Definition connect (reg : registry) (address : pystr) : io D driver :=
  identity <~ probe address ;;
  d <~ lift (dispatch reg identity) ;;
  new_driver d address ;>
  ret d.
End Equipment.
Arguments registry : clear implicits.

(** ** Regular expressions used by the built-in drivers *)
(** A small subset of re: characters, \d, ".*", groups with "|", "?", "$".
    \d matches every Unicode decimal digit. *)
Section Regex.
Variable digit : Z -> bool.
Inductive re :=
| Chr (c : Z) | Digit | Dots | Eos
| Empty | Cat (a b : re) | Alt (a b : re).
Definition Opt (a : re) : re := Alt a Empty.
(** The remainders of the text after each possible match at its start, in the
    order the engine tries them. *)
Fixpoint rests (r : re) (s : pystr) : list pystr :=
  match r with
  | Chr c => match s with x :: s' => if x =? c then [s'] else [] | [] => [] end
  | Digit => match s with x :: s' => if digit x then [s'] else [] | [] => [] end
  | Dots => (fix dots s := match s with
                           | x :: s' => if x =? 10 then [s] else dots s' ++ [s]
                           | [] => [[]]
                           end) s
  | Eos => match s with [] => [s] | [c] => if c =? 10 then [s] else [] | _ => [] end
  | Empty => [s]
  | Cat a b => flat_map (rests b) (rests a s)
  | Alt a b => rests a s ++ rests b s
  end.
(** re.match *)
Definition matches (r : re) (s : pystr) : bool := match rests r s with [] => false | _ => true end.
Definition lit (s : string) : re := fold_right Cat Empty (map Chr (str s)).
Definition seqr (l : list re) : re := fold_right Cat Empty l.
Fixpoint alt (l : list re) : re :=
  match l with
  | [] => Empty
  | [a] => a
  | a :: l' => Alt a (alt l')
  end.

(** utility.py:13-14 *)
Definition pattern_mso4000 : pystr := str "^TEKTRONIX,(MDO(3|4)\d\d\d|MSO4\d\d\d|DPO4\d\d\d)B?,.*".
Definition re_mso4000 : re :=
  seqr [lit "TEKTRONIX,";
       alt [seqr [lit "MDO"; alt [lit "3"; lit "4"]; Digit; Digit; Digit];
            seqr [lit "MSO4"; Digit; Digit; Digit]; seqr [lit "DPO4"; Digit; Digit; Digit]];
       Opt (lit "B"); lit ","; Dots].
(** utility.py:15-16 *)
Definition pattern_mso456 : pystr := str "^TEKTRONIX,(MSO(4|5|6)\d(B|LP)?|LPD64),.*".
Definition re_mso456 : re :=
  seqr [lit "TEKTRONIX,";
       alt [seqr [lit "MSO"; alt [lit "4"; lit "5"; lit "6"]; Digit; Opt (alt [lit "B"; lit "LP"])]; lit "LPD64"];
       lit ","; Dots].
(** family_mso4000.py:172 *)
Definition re_model4000 : re :=
  seqr [alt [seqr [lit "MDO"; alt [lit "3"; lit "4"]; Digit; Digit; Digit; Opt (lit "B")];
            seqr [lit "MSO4"; Digit; Digit; Digit; Opt (lit "B")]; seqr [lit "DPO4"; Digit; Digit; Digit; Opt (lit "B")]];
       Eos].
(** family_mso456.py:172-173 *)
Definition re_model456 : re :=
  seqr [alt [seqr [lit "MSO"; alt [lit "44"; lit "46"; seqr [lit "54"; Opt (lit "B")]; seqr [lit "56"; Opt (lit "B")];
                                 seqr [lit "58"; Opt (alt [lit "B"; lit "LP"])]; seqr [lit "64"; Opt (lit "B")]; lit "66B"; lit "68B"]];
            lit "LPD64"];
       Eos].
(** family_mso4000.py:168-183 and family_mso456.py:168-184: the check of the
    identity in _init_channels. *)
Definition check_identity (model : re) (id_str : pystr) : result unit :=
  if startswith (str "TEKTRONIX,") id_str then
    bind (get (split_on 44 id_str) 1) (fun m => if matches model m then Ok tt else Err ValueError)
  else Err ValueError.
(** utility.py:12-17, the built-in drivers *)
Inductive builtin := MSO4000Family | MSO456Family.
Definition builtin_registry : registry builtin := [(pattern_mso4000, MSO4000Family); (pattern_mso456, MSO456Family)].
Definition builtin_match (pattern identity : pystr) : result bool :=
  if str_eqb pattern pattern_mso4000 then Ok (matches re_mso4000 identity)
  else if str_eqb pattern pattern_mso456 then Ok (matches re_mso456 identity)
  else Err ValueError.
End Regex.
