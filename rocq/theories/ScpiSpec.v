(** What parse_scpi promises, stated on text and on lists of settings.
    58 is ':', 59 is ';', 34 is the double quote, 32 the space, 124 '|'. *)
From Coq Require Import ZArith Bool List.
Import ListNotations.
From Verif Require Import Base PyStr ScpiModel.
Local Open Scope Z_scope.

Fixpoint join (c : Z) (l : list pystr) : pystr :=
  match l with
  | [] => []
  | [x] => x
  | x :: l' => x ++ c :: join c l'
  end.

(** Cut a text at the semicolons that are outside of quotes. *)
Fixpoint cut (inside : bool) (s : pystr) : list pystr :=
  match s with
  | [] => [[]]
  | c :: s' =>
      if (c =? 59) && negb inside then [] :: cut inside s'
      else let inside := if c =? 34 then negb inside else inside in
           match cut inside s' with
           | [] => [[c]]
           | p :: ps => (c :: p) :: ps
           end
  end.

(** Every quote is closed and semicolons only occur inside quotes. *)
Fixpoint tidy (inside : bool) (s : pystr) : bool :=
  match s with
  | [] => negb inside
  | c :: s' => if c =? 34 then tidy (negb inside) s'
               else if c =? 59 then inside && tidy inside s' else tidy inside s'
  end.

(** A header node: nonempty, without separators, quotes and newlines. *)
Definition name (k : pystr) : Prop := k <> [] /\ ~ In 58 k /\ ~ In 32 k /\ ~ In 59 k /\ ~ In 34 k /\ ~ In 10 k.

Definition path := list pystr.
Definition setting : Type := path * pystr.
Definition well_formed (s : setting) : Prop :=
  fst s <> [] /\ Forall name (fst s) /\ tidy false (snd s) = true.

(** A header may be sent in full, starting with a colon, or relative to the
    branch of the previous command. *)
Inductive header (branch : path) : path -> pystr -> Prop :=
| absolute p : header branch p (58 :: join 58 p)
| relative parent rest : map upper parent = map upper branch -> rest <> [] ->
    header branch (parent ++ rest) (join 58 rest).

(** The commands of a reply. *)
Inductive reply : path -> list setting -> list pystr -> Prop :=
| reply_nil branch : reply branch [] []
| reply_cons branch p v h l cs : header branch p h -> reply (removelast p) l cs ->
    reply branch ((p, v) :: l) ((h ++ 32 :: v) :: cs).

(** The value assigned last to each key; equality of keys is decidable. *)
Definition last_value {K V} (l : list (K * V)) (k : K) (v : V) : Prop :=
  exists l1 l2, l = l1 ++ (k, v) :: l2 /\ forall v', ~ In (k, v') l2.

(** Dictionaries. *)
Definition dget {V} (d : list (pystr * V)) (k : pystr) : option V :=
  option_map snd (find (fun kv => str_eqb (fst kv) k) d).
Fixpoint tget {V} (l : list (pystr * tree V)) (p : path) : option V :=
  match p with
  | [] => None
  | [k] => match tfind l k with Some (Leaf v) => Some v | _ => None end
  | k :: p' => match tfind l k with Some (Node l') => tget l' p' | _ => None end
  end.

(** ** Keywords *)
Definition all_lower (s : pystr) : Prop := Forall (fun c => is_lower c = true) s.
Definition no_lower_head (s : pystr) : Prop := match s with c :: _ => is_lower c = false | [] => True end.
(** The accepted spellings of a keyword: capital letters, digits and
    underscores are required; each run of lower case letters is either written
    out (in capitals) or left out. *)
Inductive spelling : pystr -> pystr -> Prop :=
| sp_nil : spelling [] []
| sp_char c kw k : is_lower c = false -> spelling kw k -> spelling (c :: kw) (c :: k)
| sp_keep run kw k : run <> [] -> all_lower run -> no_lower_head kw -> spelling kw k ->
    spelling (run ++ kw) (upper run ++ k)
| sp_drop run kw k : run <> [] -> all_lower run -> no_lower_head kw -> spelling kw k ->
    spelling (run ++ kw) k.

(** A key of the types dictionary: alternatives, some of them numbered. *)
Inductive alternative := Word (w : pystr) | Numbered (w : pystr) (a b : Z).
Definition print_alternative (a : alternative) : pystr :=
  match a with
  | Word w => w
  | Numbered w a b => w ++ 60 :: str_int a ++ 45 :: str_int b ++ [62]
  end.
Definition is_alternative (a : alternative) : Prop :=
  match a with
  | Word w => Forall (fun c => is_word c = true) w
  | Numbered w a b => w <> [] /\ Forall (fun c => is_word c = true) w /\ 0 <= a /\ 0 <= b
  end.
Definition print_key (l : list alternative) : pystr := join 124 (map print_alternative l).
(** The keywords of a key, in order. *)
Definition keywords (l : list alternative) : list pystr :=
  flat_map (fun a => match a with
                     | Word w => [w]
                     | Numbered w a b => map (fun i => w ++ str_int i) (zrange a b)
                     end) l.

(** The keyword of a list selected by a node: the first of which it is a
    spelling. *)
Definition first_spelled (kws : list pystr) (k kw : pystr) : Prop :=
  exists l1 l2, kws = l1 ++ kw :: l2 /\ spelling kw k /\ forall x, In x l1 -> ~ spelling x k.
Definition rejects (kd k : pystr) : Prop :=
  exists alts, kd = print_key alts /\ alts <> [] /\ Forall is_alternative alts /\ forall x, In x (keywords alts) -> ~ spelling x k.
(** The entry of a types dictionary selected by a node. *)
Definition selects {V} (l : list (pystr * types V)) (k kw : pystr) (t : types V) : Prop :=
  exists l1 kd l2 alts, l = l1 ++ (kd, t) :: l2 /\ kd = print_key alts /\ Forall is_alternative alts /\
    first_spelled (keywords alts) k kw /\ forall kd' t', In (kd', t') l1 -> rejects kd' k.

(** Canonical path and type of a path: nodes known to the types become the
    full keyword in capitals, others stay as sent (in capitals). *)
Inductive resolves {V} : option (types V) -> path -> path -> option (types V) -> Prop :=
| res_end t : resolves t [] [] t
| res_untyped k p cp t : resolves None p cp t -> resolves None (k :: p) (upper k :: cp) t
| res_known l k kw t0 p cp t : selects l (upper k) kw t0 -> resolves (Some t0) p cp t ->
    resolves (Some (TDict l)) (k :: p) (upper kw :: cp) t
| res_unknown l k p cp t : (forall kd t0, In (kd, t0) l -> rejects kd (upper k)) -> resolves None p cp t ->
    resolves (Some (TDict l)) (k :: p) (upper k :: cp) t.
(** The value stored for a text. *)
Definition converts {V} (raw : pystr -> V) (t : option (types V)) (text : pystr) (v : V) : Prop :=
  match t with
  | Some (TCall f) => f text = Ok v
  | _ => v = raw text
  end.
(** A setting as stored. *)
Definition stored {V} (raw : pystr -> V) (types0 : option (types V)) (s : setting) (r : path * V) : Prop :=
  exists t, resolves types0 (fst s) (fst r) t /\ converts raw t (snd s) (snd r).

Definition prefix_of (p q : path) : Prop := exists r, q = p ++ r.

(** The value assigned to [p] is not followed by an assignment to [p] itself,
    above it or below it. *)
Definition survives {V} (l : list (path * V)) (p : path) (v : V) : Prop :=
  exists l1 l2, l = l1 ++ (p, v) :: l2 /\ forall q w, In (q, w) l2 -> ~ prefix_of q p /\ ~ prefix_of p q.
(** No header is both a value and a proper prefix of another header. *)
Definition conflict_free {V} (l : list (path * V)) : Prop :=
  forall a b, In a l -> In b l -> prefix_of (fst a) (fst b) -> fst a = fst b.
(** The last value of a reply does not end in a colon. *)
Definition last_text_ok (l : list setting) : Prop :=
  forall l' s, l = l' ++ [s] -> forall v, snd s <> v ++ [58].
(** A command has a nonempty header and a value, separated by a space. *)
Definition command_ok (d : pystr) : Prop := exists h v, d = h ++ 32 :: v /\ ~ In 32 h /\ h <> [].
