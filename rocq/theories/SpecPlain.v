(** Which ASTs the node printers can print: the records the printers take for
    granted, and the remarks that are laid out word by word.  Independent of the
    printers. *)
From Coq Require Import String Ascii List NArith ZArith Arith.
From Verif Require Import Base Json OpCommon Printer SolPrinter VyPrinter Generator SpecTree SpecOps SpecPrinter.
Import ListNotations.
Open Scope string_scope.
Open Scope list_scope.

Definition all_strings (l : list json) : Prop := forall v, In v l -> exists s, v = JStr s.

(** ** Solidity *)

(** Named arguments: as many names as arguments, and the names are strings. *)
Definition sol_regular (n : json) : Prop :=
  (is_sol "FunctionCall" n -> forall names args,
     has_field n "names" (JArr names) -> has_field n "arguments" (JArr args) ->
     names = [] \/ all_strings names /\ length names = length args) /\
  (is_sol "FunctionCallOptions" n -> forall names opts,
     has_field n "names" (JArr names) -> has_field n "options" (JArr opts) ->
     all_strings names /\ length names = length opts).

(** The node [n] carries the remark [t]; its continuation lines begin with
    [next]. *)
Inductive sol_remark (n : json) : string -> string -> Prop :=
| Sol_comment t :
    is_sol "Comment" n -> has_field n "text" (JStr t) -> sol_remark n t "// "
| Sol_documentation s t :
    is_sol "StructuredDocumentation" n -> has_field n "text" (JStr s) -> In t (lines s) ->
    sol_remark n t " *   "
| Sol_assembly t :
    is_sol "InlineAssembly" n -> has_field n "documentation" (JStr t) -> sol_remark n t "/// ".

(** ** Vyper *)

Fixpoint ascii_only (s : string) : Prop :=
  match s with
  | EmptyString => True
  | String c s => (N_of_ascii c < 128)%N /\ ascii_only s
  end.

(** No more default values than arguments, an even number of hexadecimal digits,
    as many keys as values. *)
Definition vy_regular (n : json) : Prop :=
  (is_vy "arguments" n -> forall args defaults,
     has_field n "args" (JArr args) -> has_field n "defaults" (JArr defaults) ->
     length defaults <= length args) /\
  (is_vy "Bytes" n -> forall s, has_field n "value" (JStr s) ->
     ascii_only s /\ Nat.Even (String.length s)) /\
  (is_vy "Dict" n -> forall ks vs,
     has_field n "keys" (JArr ks) -> has_field n "values" (JArr vs) -> length ks = length vs).

Inductive vy_remark (n : json) : string -> string -> Prop :=
| Vy_comment t :
    is_vy "Comment" n -> has_field n "value" (JStr t) -> vy_remark n t "# "
| Vy_doc v t :
    is_vy "FunctionDef" n \/ is_vy "Module" n ->
    has_field n "doc_string" v -> has_field v "value" (JStr t) -> vy_remark n t "".

(** A statement that has been commented out. *)
Definition vy_commented_out (n v : json) : Prop :=
  is_vy "Comment" n /\ has_field n "value" v /\ is_object v = true.

(** ** Whole ASTs *)

Definition everywhere (P : json -> Prop) (n : json) : Prop :=
  forall q x, subtree q n = Some x -> P x.

(** Nothing irregular and no remarks. *)
Definition sol_plain : json -> Prop :=
  everywhere (fun x => sol_regular x /\ forall t next, ~ sol_remark x t next).

Definition vy_plain : json -> Prop :=
  everywhere (fun x => vy_regular x /\ (forall t next, ~ vy_remark x t next) /\
                       (forall v, ~ vy_commented_out x v)).

(** Nothing irregular, and no word of a remark is longer than [k]. *)
Definition short_words (k : N) (t : string) : Prop := forall w, In w (words t) -> (slen w <= k)%N.

Definition sol_legible (k : N) : json -> Prop :=
  everywhere (fun x => sol_regular x /\ forall t next, sol_remark x t next -> short_words k t).

(** A statement that has been commented out is printed first, and its text laid
    out word by word. *)
Definition vy_legible (k : N) : json -> Prop :=
  everywhere (fun x => vy_regular x /\ (forall t next, vy_remark x t next -> short_words k t) /\
    (forall v, vy_commented_out x v -> forall oc c,
       exists t, print_text oc (vy_emit c v) = Ok t /\ short_words k t)).

(** ** The printer used for the comment texts

    It prints every plain node; the printers of the crate do (C85). *)
Definition reads_sol (e : env) : Prop := forall n, sol_plain n -> exists s, e_pp e n = Ok s.
Definition reads_vy (e : env) : Prop := forall n, vy_plain n -> exists s, e_pp e n = Ok s.

(** A plain node; a function or a module may have a doc string. *)
Definition vy_clear (n : json) : Prop :=
  vy_plain n \/
  ((is_vy "FunctionDef" n \/ is_vy "Module" n) /\
   forall k v, has_field n k v -> k <> "doc_string" -> vy_plain v).

(** The printers of the crate. *)
Definition prints_sol (e : env) : Prop := forall n, e_pp e n = sol_print (e_oc e) n.
Definition prints_vy (e : env) (fl : Z * Z -> string) : Prop := forall n, e_pp e n = vy_print (e_oc e) fl n.

(** ** Mutants

    The AST holds a remark. *)
Definition sol_says (n : json) (t next : string) : Prop :=
  exists q x, subtree q n = Some x /\ sol_remark x t next.
Definition vy_says (n : json) (t next : string) : Prop :=
  exists q x, subtree q n = Some x /\ vy_remark x t next.

(** What the mutated nodes are expected to hold: the arguments of a call are
    nodes; *)
Definition sol_filled (n : json) : Prop :=
  is_sol "FunctionCall" n -> forall l x, has_field n "arguments" (JArr l) -> In x l -> is_object x = true.

(** the arguments of a call, operands and statements are nodes, and doc strings
    are marked as such. *)
Definition vy_filled (n : json) : Prop :=
  (is_vy "Call" n -> forall l x, has_field n "args" (JArr l) -> In x l -> is_object x = true) /\
  (is_vy "UnaryOp" n -> forall x, has_field n "operand" x -> is_object x = true) /\
  (forall l x, has_field n "body" (JArr l) -> In x l -> is_object x = true) /\
  (forall v, has_field n "doc_string" v -> is_object v = true -> is_vy "DocStr" v).

(** The run writes its files with the printers of the crate. *)
Definition writes_sol (oc : bool) (W : world) : Prop :=
  forall k n, w_print W k n = match sol_print oc n with Ok _ => Ok tt | Err e => Err e | Panic m => Panic m | Diverge => Diverge end.
Definition writes_vy (oc : bool) (fl : Z * Z -> string) (W : world) : Prop :=
  forall k n, w_print W k n = match vy_print oc fl n with Ok _ => Ok tt | Err e => Err e | Panic m => Panic m | Diverge => Diverge end.
