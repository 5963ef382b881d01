(** Model of hardware_tools/equipment/utility.py [parse_scpi]. *)
From Coq Require Import String ZArith Bool List.
Import ListNotations.
From Verif Require Import Base PyStr.
Local Open Scope Z_scope.
Local Open Scope result_scope.

(** ** Python string primitives *)
(** s.split(c) for a one-character separator. *)
Fixpoint split_on (c : Z) (s : pystr) : list pystr :=
  match s with
  | [] => [[]]
  | x :: s' => if x =? c then [] :: split_on c s'
               else match split_on c s' with
                    | [] => [[x]]
                    | p :: ps => (x :: p) :: ps
                    end
  end.
(** s.split(c, maxsplit=1): None if the separator does not occur. *)
Fixpoint split1 (c : Z) (s : pystr) : option (pystr * pystr) :=
  match s with
  | [] => None
  | x :: s' => if x =? c then Some ([], s')
               else match split1 c s' with
                    | Some (a, b) => Some (x :: a, b)
                    | None => None
                    end
  end.
(** s.strip(c) for a one-character set. *)
Fixpoint lstrip_of (c : Z) (s : pystr) : pystr :=
  match s with
  | x :: s' => if x =? c then lstrip_of c s' else s
  | [] => []
  end.
Definition strip_of (c : Z) (s : pystr) : pystr := rev (lstrip_of c (rev (lstrip_of c s))).
(** s.count(c). *)
Definition count (c : Z) (s : pystr) : nat := length (filter (fun x => x =? c) s).

(** ** utility.py:94-108 -- splitting into commands *)
(** One iteration of the loop utility.py:99-108; [data_list[-1] += ...] on an empty list
    would raise IndexError, but quoted is False initially. *)
Fixpoint append_last (l : list pystr) (s : pystr) : result (list pystr) :=
  match l with
  | [] => Err IndexError
  | [x] => Ok [x ++ s]
  | x :: l' => r <- append_last l' s ;; Ok (x :: r)
  end.
Definition split_step (st : list pystr * bool) (d : pystr) : result (list pystr * bool) :=
  let '(data_list, quoted) := st in
  data_list <- (if quoted then append_last data_list (59 :: d) else Ok (data_list ++ [d])) ;;
  Ok (data_list, if Nat.odd (count 34 d) then negb quoted else quoted).
Definition clean (data : pystr) : result pystr :=
  last_ <- getz data (-1) ;;
  let data := if last_ =? 58 then removelast data else data in
  Ok (strip_of 59 data).
Definition split_commands (data : pystr) : result (list pystr) :=
  data <- clean data ;;
  st <- foldM split_step ([], false) (split_on 59 data) ;;
  Ok (fst st).

(** ** utility.py:110-146 -- key_match *)
Definition is_lower (c : Z) : bool := (97 <=? c) && (c <=? 122).
Definition is_upper (c : Z) : bool := (65 <=? c) && (c <=? 90).
(** \w on ASCII. *)
Definition is_word (c : Z) : bool := is_lower c || is_upper c || is_digit c || (c =? 95).

(** The regular expression of a keyword (utility.py:142-143): literal characters and
    optional groups.  Characters other than letters, digits and underscore
    would be regex syntax; they are treated as literals (simplification). *)
Inductive tok := Lit (c : Z) | Group (s : pystr).
Fixpoint tokens_run (run : pystr) (kk : pystr) : list tok :=
  let flush := match run with [] => [] | _ => [Group (upper run)] end in
  match kk with
  | [] => flush
  | c :: kk' => if is_lower c then tokens_run (run ++ [c]) kk' else flush ++ Lit c :: tokens_run [] kk'
  end.
Definition tokens (kk : pystr) : list tok := tokens_run [] kk.
(** re.match("^...$", k) with backtracking; $ also matches before a final
    newline. *)
Fixpoint rmatch (toks : list tok) (k : pystr) : bool :=
  match toks with
  | [] => match k with [] => true | [c] => c =? 10 | _ => false end
  | Lit c :: toks' => match k with x :: k' => (x =? c) && rmatch toks' k' | [] => false end
  | Group s :: toks' => (startswith s k && rmatch toks' (skipn (length s) k)) || rmatch toks' k
  end.

(** re.match(r"(\w+)<(\d+)\-(\d+)>", kk): word, low, high. *)
Fixpoint span_word (s : pystr) : pystr * pystr :=
  match s with
  | c :: s' => if is_word c then let (w, r) := span_word s' in (c :: w, r) else ([], s)
  | [] => ([], [])
  end.
Definition match_range (kk : pystr) : option (pystr * Z * Z) :=
  match span_word kk with
  | ([], _) => None
  | (w, 60 :: r) =>
      match span_digits r with
      | ([], _) => None
      | (lo, 45 :: r') =>
          match span_digits r' with
          | ([], _) => None
          | (hi, 62 :: _) => Some (w, value10 lo, value10 hi)
          | _ => None
          end
      | _ => None
      end
  | _ => None
  end.
(** range(a, b + 1). *)
Definition zrange (a b : Z) : list Z := map (fun i => a + Z.of_nat i) (seq 0 (Z.to_nat (b + 1 - a))).
(** 133-140. *)
Definition expand (kd : pystr) : list pystr :=
  flat_map (fun kk => match match_range kk with
                      | Some (w, a, b) => map (fun i => w ++ str_int i) (zrange a b)
                      | None => [kk]
                      end) (split_on 124 kd).

Section Types.
Context {V : Type}.
(** The values of the dictionary: [raw] wraps an unconverted string. *)
Variable raw : pystr -> V.

(** The argument [types]: dictionaries, callables and anything else. *)
Inductive types := TDict (l : list (pystr * types)) | TCall (f : pystr -> result V) | TOther.

(** 131-146.  The test of one dictionary key: the first alternative that
    matches. *)
Definition match_key (k : pystr) (kd : pystr) : option pystr :=
  option_map upper (find (fun kk => rmatch (tokens kk) k) (expand kd)).
Fixpoint key_match_in (k : pystr) (l : list (pystr * types)) : pystr * option types :=
  match l with
  | [] => (k, None)
  | (kd, vd) :: l' => match match_key k kd with
                      | Some kk => (kk, Some vd)
                      | None => key_match_in k l'
                      end
  end.
(** d.items() of something that is not a dictionary: AttributeError. *)
Definition key_match (k : pystr) (d : option types) : result (pystr * option types) :=
  match d with
  | None => Ok (k, None)
  | Some (TDict l) => Ok (key_match_in (upper k) l)
  | Some _ => Err AttributeError
  end.

(** ** utility.py:148-179 *)
(** Flat dictionary in insertion order. *)
Fixpoint dset (d : list (pystr * V)) (k : pystr) (v : V) : list (pystr * V) :=
  match d with
  | [] => [(k, v)]
  | (k', v') :: d' => if str_eqb k' k then (k', v) :: d' else (k', v') :: dset d' k v
  end.

(** Nested dictionary.  Python mutates it through the reference [parent_d];
    the reference always points to a dictionary still reachable from [values]
    along the keys passed since the last reset (only children of [parent_d] are
    ever overwritten), so it is represented by that path.  Converted values
    are assumed not to be dictionaries. *)
Inductive tree := Leaf (v : V) | Node (l : list (pystr * tree)).
Fixpoint tfind (l : list (pystr * tree)) (k : pystr) : option tree :=
  match l with
  | [] => None
  | (k', t) :: l' => if str_eqb k' k then Some t else tfind l' k
  end.
Fixpoint tset (l : list (pystr * tree)) (k : pystr) (t : tree) : list (pystr * tree) :=
  match l with
  | [] => [(k, t)]
  | (k', t') :: l' => if str_eqb k' k then (k', t) :: l' else (k', t') :: tset l' k t
  end.
(** Apply [f] to the dictionary at a path; the path is always valid (proved):
    a broken path is reported as RuntimeError. *)
Fixpoint at_path (path : list pystr) (f : list (pystr * tree) -> list (pystr * tree)) (l : list (pystr * tree))
  : result (list (pystr * tree)) :=
  match path with
  | [] => Ok (f l)
  | k :: path' =>
      match tfind l k with
      | Some (Node l') => l'' <- at_path path' f l' ;; Ok (tset l k (Node l''))
      | _ => Err RuntimeError
      end
  end.
(** 167-168. *)
Definition enter (k : pystr) (l : list (pystr * tree)) : list (pystr * tree) :=
  match tfind l k with
  | Some (Node _) => l
  | _ => tset l k (Node [])
  end.

Record state := State {
  s_flat : list (pystr * V);        (* values when flat *)
  s_nested : list (pystr * tree);   (* values when not flat *)
  s_path : list pystr;              (* where parent_d points, when not flat *)
  s_parent : pystr;                 (* parent *)
  s_types : option types }.         (* types_d *)

(** utility.py:163-170 -- the loop over the parent keys. *)
Fixpoint descend (flat : bool) (st : state) (k : list pystr) : result (state * list pystr) :=
  match k with
  | k0 :: ((_ :: _) as k') =>
      kt <- key_match k0 (s_types st) ;;
      let '(k0, td) := kt in
      let parent := s_parent st ++ k0 ++ [58] in
      nested <- (if flat then Ok (s_nested st) else at_path (s_path st) (enter k0) (s_nested st)) ;;
      descend flat (State (s_flat st) nested (if flat then s_path st else s_path st ++ [k0]) parent td) k'
  | _ => Ok (st, k)
  end.

(** utility.py:153-177 -- one command. *)
Definition step (flat : bool) (types0 : option types) (st : state) (d : pystr) : result state :=
  kv <- match split1 32 d with Some kv => Ok kv | None => Err ValueError end ;;
  let '(k, v) := kv in
  let k := split_on 58 (upper k) in
  k0 <- get k 0 ;;
  let '(st, k) := match k0 with
                  | [] => (State (s_flat st) (s_nested st) [] [58] types0, tl k)
                  | _ => (st, k)
                  end in
  sk <- descend flat st k ;;
  let '(st, k) := sk in
  k0 <- get k 0 ;;
  kt <- key_match k0 (s_types st) ;;
  let '(k, tc) := kt in
  v <- match tc with Some (TCall f) => f v | _ => Ok (raw v) end ;;
  if flat then Ok (State (dset (s_flat st) (s_parent st ++ k) v) (s_nested st) (s_path st) (s_parent st) (s_types st))
  else nested <- at_path (s_path st) (fun l => tset l k (Leaf v)) (s_nested st) ;;
       Ok (State (s_flat st) nested (s_path st) (s_parent st) (s_types st)).

Definition init (types0 : option types) : state := State [] [] [] [58] types0.
Definition run (flat : bool) (types0 : option types) (data : pystr) : result state :=
  l <- split_commands data ;;
  foldM (step flat types0) (init types0) l.

(** parse_scpi(data, flat=True, types) *)
Definition parse_scpi_flat (types0 : option types) (data : pystr) : result (list (pystr * V)) :=
  st <- run true types0 data ;; Ok (s_flat st).
(** parse_scpi(data, flat=False, types) *)
Definition parse_scpi_nested (types0 : option types) (data : pystr) : result (list (pystr * tree)) :=
  st <- run false types0 data ;; Ok (s_nested st).
End Types.
Arguments types : clear implicits.
Arguments tree : clear implicits.
Arguments state : clear implicits.
