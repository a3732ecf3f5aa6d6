(** Solidity trees with comments among the statements, members and definitions. *)
From Coq Require Import String Ascii List NArith ZArith Bool.
From Verif Require Import Base Json SpecPrinter SpecLiteral SpecVyText SpecSolText SpecSolEdit.
Import ListNotations.
Open Scope string_scope.
Open Scope list_scope.

(** A comment with a text, or one that holds a statement: no text then, and the
    statement is written on one line that is short enough to stand behind [h]
    levels of indentation and "// " on a page of 150 columns. *)
Definition fair_comment (h : nat) (n : json) : Prop :=
  is_comment n = true /\
  (gone n "value" \/
   (gone n "text" \/ fld n "text" (JStr "")) /\
   exists v s, fld n "value" v /\ cnode s v /\ ceasy 0 s /\
     forall ind, one_line (ctext 4 ind s) /\ (4 * N.of_nat h + 4 + slen (ctext 4 ind s) <= 150)%N).

(** A statement that can be put into such a comment. *)
Definition short_statement (h : nat) (v : json) : Prop :=
  exists s, cnode s v /\ ceasy 0 s /\
    forall ind, one_line (ctext 4 ind s) /\ (4 * N.of_nat h + 4 + slen (ctext 4 ind s) <= 150)%N.

(** Where the nodes of each type keep their bodies. *)
Definition body_fields : list (string * string) :=
  [ ("IfStatement", "trueBody"); ("IfStatement", "falseBody"); ("WhileStatement", "body"); ("DoWhileStatement", "body");
    ("ForStatement", "body"); ("TryCatchClause", "block"); ("FunctionDefinition", "body"); ("ModifierDefinition", "body") ].
(** Lists, and whether there may be comments in them. *)
Definition list_fields : list (string * string * bool) :=
  [ ("Block", "statements", true); ("UncheckedBlock", "statements", true); ("ContractDefinition", "nodes", true);
    ("SourceUnit", "nodes", false); ("TryStatement", "clauses", false) ].

(** [noted h v v']: [v'] is [v] with comments added in such lists, at any depth. *)
Inductive noted (h : nat) : json -> json -> Prop :=
| nt_same : forall v, noted h v v
| nt_node : forall o o', noted_fields h (node_type o) o o' -> noted h (JObj o) (JObj o')
with noted_fields (h : nat) : string -> list (string * json) -> list (string * json) -> Prop :=
| nf_nil : forall ty, noted_fields h ty [] []
| nf_keep : forall ty p o o', noted_fields h ty o o' -> noted_fields h ty (p :: o) (p :: o')
| nf_body : forall ty k v v' o o', In (ty, k) body_fields -> noted h v v' -> noted_fields h ty o o' ->
    noted_fields h ty ((k, v) :: o) ((k, v') :: o')
| nf_list : forall ty k b l l' o o', In (ty, k, b) list_fields -> l <> [] -> noted_list h b l l' -> noted_fields h ty o o' ->
    noted_fields h ty ((k, JArr l) :: o) ((k, JArr l') :: o')
with noted_list (h : nat) : bool -> list json -> list json -> Prop :=
| nl_nil : forall b, noted_list h b [] []
| nl_comment : forall c l l', fair_comment h c -> noted_list h true l l' -> noted_list h true l (c :: l')
| nl_cons : forall b v v' l l', noted h v v' -> noted_list h b l l' -> noted_list h b (v :: l) (v' :: l').
