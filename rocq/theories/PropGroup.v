(** C81: a mutant's text is read as the mutated tree. *)
From Coq Require Import String Ascii List NArith ZArith Bool.
From Verif Require Import Base Json Rng Permissions MutationType Traverse OpCommon SolMutators VyMutators Language Printer SolPrinter
  SpecTree SpecMutation SpecOps SpecAccept SpecPrinter SpecGroup GroupFacts GroupClaims GroupDemo LocalDemo Samples Witness SpecSolText SolTextClaims.
Import ListNotations.
Open Scope string_scope.
Open Scope list_scope.

(** A node of nested operations is printed as its operands and operators in a
    row, without parentheses: only the precedences tell how to read it. *)
Theorem C81_printed_in_a_row :
  forall n t, operations n t -> forall c,
  sol_emit c n = flat_map (fun x => match x with inl v => sol_emit c v | inr op => [Space; Tok op; Space] end) (row t).
Proof. exact printed_row. Qed.
Print Assumptions C81_printed_in_a_row.

(** There is only one well grouped way to read a row. *)
Theorem C81_one_reading :
  forall n n' t t', well_grouped n -> well_grouped n' -> operations n t -> operations n' t' ->
  (forall p x op, subtree p n = Some x \/ subtree p n' = Some x -> is_sol "BinaryOperation" x -> has_field x "operator" (JStr op) ->
     In op (map fst levels)) ->
  row t = row t' -> t = t'.
Proof. exact one_reading_claim. Qed.
Print Assumptions C81_one_reading.

(** Full statement: a mutant of a well grouped program is well grouped, that is,
    its text is read as the mutated tree.  The code violates it: the printer adds
    no parentheses, and six of the operators put looser operations into places
    for tighter ones.  For each of them there is a mutant that is printed as a
    different program is. *)
Theorem C81_mutant_grouped_refuted :
  forall t, In t regrouping_mutations ->
  exists e m i ast r ast' s other text, sol_mutator_for e t = Some m /\ well_grouped ast /\
    make_mutation ex_all sol_id m 10 i ast r = Ok (ast', s) /\
    ~ well_grouped ast' /\ well_grouped other /\ other <> ast' /\
    forall oc, sol_print oc ast' = Ok text /\ sol_print oc other = Ok text.
Proof. exact regrouped_claim. Qed.
Print Assumptions C81_mutant_grouped_refuted.

(** The other operators keep the grouping. *)
Theorem C81_mutant_grouped_partial :
  forall e t m ps idm fuel i ast r ast' s,
  sol_mutator_for e t = Some m -> In t grouping_mutations -> make_mutation ps idm m fuel i ast r = Ok (ast', s) ->
  well_grouped ast -> well_grouped ast'.
Proof. exact grouping_kept_claim. Qed.
Print Assumptions C81_mutant_grouped_partial.

(** A replaced operator changes the grouping only if the comment names operators
    of different precedence. *)
Theorem C81_operator_grouped_partial :
  forall e g class m ps idm fuel i ast r ast' s,
  sol_class g = Some class -> sol_mutator_for e (Generic g) = Some m ->
  make_mutation ps idm m fuel i ast r = Ok (ast', s) -> well_grouped ast ->
  well_grouped ast' \/
  exists op op' cm, level_of op' <> level_of op /\ mk_comment s = Some cm /\ is_sol "Comment" cm /\
    has_field cm "text" (JStr (String.concat "" [show_mt (Generic g); " Mutator: changed '"; op; "' to '"; op'; "'"])).
Proof. exact grouping_operator_claim. Qed.
Print Assumptions C81_operator_grouped_partial.

(** In a program with all its parentheses every mutant is well grouped (for
    FunctionCall, provided that the arguments are in parentheses too). *)
Theorem C81_parenthesised_partial :
  forall e t m ps idm fuel i ast r ast' s,
  sol_mutator_for e t = Some m -> make_mutation ps idm m fuel i ast r = Ok (ast', s) -> parenthesised ast ->
  (t = Generic FunctionCall -> forall p n l a, subtree p ast = Some n -> is_sol "FunctionCall" n ->
     has_field n "arguments" (JArr l) -> In a l -> (exists ty, is_sol ty a) /\ binding a = 14) ->
  well_grouped ast'.
Proof. exact parenthesised_claim. Qed.
Print Assumptions C81_parenthesised_partial.

(** The sample program of C78 is well grouped; [!(...)] is put around one of its
    conditions. *)
Example C81_grouped_example : (exists m s, sol_mutator_for ex_env (Generic IfStatement) = Some m /\
    make_mutation ex_all sol_id m 10 1 demo_sol_node (const_rng 2) = Ok (grouped_demo_mutant, s)) /\
  well_grouped demo_sol_node /\ grouped_demo_mutant <> demo_sol_node.
Proof. exact grouped_demo. Qed.

(** [return (a - b) * c;] *)
Example C81_parenthesised_example : parenthesised paren_demo_node /\
  exists m ast' s, sol_mutator_for ex_env (Generic ArithmeticBinaryOp) = Some m /\
    make_mutation ex_all sol_id m 10 0 paren_demo_node (const_rng 0) = Ok (ast', s) /\ ast' <> paren_demo_node.
Proof. exact paren_demo. Qed.

(** [a - b * c] *)
Example C81_row_example : let n := jx (XBin "-" (XId "a") (XBin "*" (XId "b") (XId "c"))) in
  well_grouped n /\
  operations n (Operation "-" (Operand (jx (XId "a"))) (Operation "*" (Operand (jx (XId "b"))) (Operand (jx (XId "c"))))).
Proof. exact row_demo. Qed.
