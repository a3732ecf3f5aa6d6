(** Specification vocabulary for comment insertion, independent of the
    insertion code. *)
From Coq Require Import String List NArith ZArith Bool.
From Verif Require Import Base Json SolMutators VyMutators SpecTree SpecMutation SpecOps.
Import ListNotations.
Open Scope string_scope.
Open Scope list_scope.

(** A node whose id is [id] lies in [x] ([x] itself included). *)
Definition contains (idm : json -> option N) (id : N) (x : json) : Prop :=
  exists p n, subtree p x = Some n /\ idm n = Some id.

(** [l'] is [l] with [c] put immediately before the first element that
    contains the node [id]. *)
Definition before_first (idm : json -> option N) (id : N) (c : json) (l l' : list json) : Prop :=
  exists l1 x l2, l = l1 ++ x :: l2 /\ l' = l1 ++ c :: x :: l2 /\
    contains idm id x /\ forall y, In y l1 -> ~ contains idm id y.

(** The [i]-th child of the object [n] is [v], stored under [k], which is the
    first entry bearing that key. *)
Definition field_at (n : json) (i : nat) (k : string) (v : json) : Prop :=
  exists o, n = JObj o /\ nth_error o i = Some (k, v) /\
    forall j w, j < i -> nth_error o j <> Some (k, w).

(** Where each language keeps statement lists: node type and key. *)
Definition vy_lists : list (string * string) :=
  [("For", "body"); ("FunctionDef", "body"); ("Module", "body"); ("If", "body"); ("If", "orelse")].
Definition sol_lists : list (string * string) :=
  [("Block", "statements"); ("UncheckedBlock", "statements"); ("ContractDefinition", "nodes")].
(** Solidity nodes with a block or a single statement under a key. *)
Definition sol_bodies : list (string * string) :=
  [("DoWhileStatement", "body"); ("ForStatement", "body"); ("FunctionDefinition", "body");
   ("ModifierDefinition", "body"); ("WhileStatement", "body");
   ("IfStatement", "trueBody"); ("IfStatement", "falseBody"); ("TryCatchClause", "block")].

(** Node [n] directly keeps a statement list, found at position [q] below
    [n], one element of which contains the node [id]. *)
Definition vy_home (id : N) (n : json) (q : path) (l : list json) : Prop :=
  exists t k i, In (t, k) vy_lists /\ is_vy t n /\ field_at n i k (JArr l) /\ q = [i] /\
    exists x, In x l /\ contains vy_id id x.

(** The new Solidity block around a single statement. *)
Definition wrapping (c x : json) : json :=
  JObj [("id", JNum (NumU 9999994)); ("nodeType", JStr "Block"); ("statements", JArr [c; x])].

(** The places a comment may go in a Solidity node [n]: position below [n],
    what is there, and what is there afterwards. *)
Inductive sol_place (id : N) (c : json) (n : json) : path -> json -> json -> Prop :=
| place_list t k i l l' :
    In (t, k) sol_lists -> is_sol t n -> field_at n i k (JArr l) ->
    before_first sol_id id c l l' -> sol_place id c n [i] (JArr l) (JArr l')
| place_body t k i b j l l' :
    In (t, k) sol_bodies -> is_sol t n -> field_at n i k b ->
    is_sol "Block" b -> sol_id b <> Some id ->
    field_at b j "statements" (JArr l) ->
    before_first sol_id id c l l' -> sol_place id c n [i; j] (JArr l) (JArr l')
| place_top t k i b j l :
    In (t, k) sol_bodies -> is_sol t n -> field_at n i k b ->
    is_sol "Block" b -> sol_id b = Some id ->
    field_at b j "statements" (JArr l) -> sol_place id c n [i; j] (JArr l) (JArr (c :: l))
| place_wrap t k i b s :
    In (t, k) sol_bodies -> is_sol t n -> field_at n i k b ->
    is_sol s b -> s <> "Block" -> contains sol_id id b ->
    sol_place id c n [i] b (wrapping c b).

(** No node with id [up] offers a place for a comment on [id] (said of ids
    that occur once in the program). *)
Definition sole (idm : json -> option N) (up : N) (ast : json) : Prop :=
  forall p q n m, subtree p ast = Some n -> subtree q ast = Some m ->
    idm n = Some up -> idm m = Some up -> p = q.
Definition homeless (idm : json -> option N) (place : json -> Prop) (ast : json) (up : N) : Prop :=
  sole idm up ast -> forall p n, subtree p ast = Some n -> idm n = Some up -> ~ place n.

(** Every Solidity block has its list of statements (the compiler always
    emits it). *)
Definition blocks_have_lists (ast : json) : Prop :=
  forall p b, subtree p ast = Some b -> is_sol "Block" b ->
    exists j l, field_at b j "statements" (JArr l).

(** The mutated node is a block serving directly as a branch of an [if] or as
    the block of a [try]/[catch] clause. *)
Definition mutated_branch (id : N) (ast : json) : Prop :=
  exists p n i k b, subtree p ast = Some n /\ In k ["trueBody"; "falseBody"; "block"] /\
    field_at n i k b /\ is_sol "Block" b /\ sol_id b = Some id.

(** [x] is found in [j] by following the keys [ks] (through any array
    element). *)
Inductive found : json -> list string -> json -> Prop :=
| found_here j : found j [] j
| found_elem l y ks x : In y l -> found y ks x -> found (JArr l) ks x
| found_key o k y ks x : In (k, y) o -> found y ks x -> found (JObj o) (k :: ks) x.

(** Nothing of [a] is lost in [b]: every scalar of [a] is still in [b] under
    the same keys, up to further keys in between (a new enclosing block). *)
Definition scalar (x : json) : Prop :=
  match x with JArr _ | JObj _ => False | _ => True end.
Definition nothing_lost (a b : json) : Prop :=
  forall ks x, found a ks x -> scalar x -> exists ks', found b ks' x /\ subseq ks ks'.
