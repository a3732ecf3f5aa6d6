(** The text of a Solidity mutant is read as the program with one edit: C95. *)
From Coq Require Import String Ascii List NArith ZArith Bool.
From Verif Require Import Base Json Rng MutationType Traverse OpCommon SolMutators Language Generator Printer SolPrinter
  SpecTree SpecMutation SpecOps SpecPrinter SpecTotal SpecAccept SpecGenerator SpecComments SpecLiteral SpecVyText SpecSolText SpecSolRead SpecSolEdit SpecSolNote
  SolTextClaims SolEditClaims SolEditDemo SolNoteDemo SolMutantClaims SolMutantDemo GenWitness Samples.
Import ListNotations.
Open Scope string_scope.
Open Scope list_scope.

(** C95: [l] is the program the run was started on and [ast'] the tree of a
    mutant. It stands for a program [l'] that is [l] with one edit of the kind
    that the record names (and braces where the comment needed them), and
    whatever text is printed for [ast'], the comment of the mutation and the
    deleted statement in it, is read as [l'], provided that [l'] has its
    operands in parentheses where the grammar needs them. *)
Theorem C95_solidity_mutants_read_as_one_edit :
  forall e W P fuel license ast r l h, rearranges (w_order W) ->
  unit_node license l ast -> forallb top_spelled l = true -> lean ast = true -> uncommented ast ->
  (forall p n t, subtree p ast = Some n -> In t (rp_types P) -> sol_accepts t n -> sol_crash_free t n) ->
  (In (Generic DeleteStatement) (rp_types P) -> forall p v, subtree p ast = Some v -> is_sol "ExpressionStatement" v -> short_statement h v) ->
  forall ast' mr i, In (ast', mr) (mutants (fst (generate (solidity_files e) W P fuel ast r))) ->
  mr_node mr = Some i -> ~ mutated_branch i ast ->
  (forall p b, subtree p ast = Some b -> is_sol "Block" b -> sol_id b = Some i -> ~ has_field b "statements" (JArr [])) ->
  exists t l1 l', mr_type mr = Some t /\ In t (rp_types P) /\ one_edit t l l1 /\ same_but_braces l1 l' /\ unit_node license l' (without_comments ast') /\
  (oeasy one_line license -> Forall (easy_top_level h) l' -> (N.of_nat h <= 36)%N -> narrow 150 (unit_text 4 license l') -> forallb top_spelled l' = true ->
   forall oc text, sol_print oc ast' = Ok text -> reads text l').
Proof. exact solidity_mutants_read. Qed.
Print Assumptions C95_solidity_mutants_read_as_one_edit.

(** The run of C93's example: five mutants, each with the program that its text
    is read as. *)
Example C95_example :
  rearranges (w_order ex_world) /\ unit_node (Some "MIT") small_sol small_sol_node /\ forallb top_spelled small_sol = true /\
  lean small_sol_node = true /\ uncommented small_sol_node /\
  (forall p n t, subtree p small_sol_node = Some n -> In t (rp_types sol_edit_params) -> sol_accepts t n -> sol_crash_free t n) /\
  (forall p v, subtree p small_sol_node = Some v -> is_sol "ExpressionStatement" v -> short_statement 5 v) /\
  (forall i, ~ mutated_branch i small_sol_node) /\
  (forall i p b, subtree p small_sol_node = Some b -> is_sol "Block" b -> sol_id b = Some i -> ~ has_field b "statements" (JArr [])) /\
  oeasy one_line (Some "MIT") /\
  Forall2 (fun am l' => unit_node (Some "MIT") l' (without_comments (fst am)) /\ Forall (easy_top_level 5) l' /\
                        narrow 150 (unit_text 4 (Some "MIT") l') /\ forallb top_spelled l' = true)
    (mutants (fst (generate (solidity_files ex_env) ex_world sol_edit_params 20 small_sol_node ex_rng)))
    [ small_with (sum1 "**" "1") test1 call1 loop1;
      small_with (sum1 "+" "1") test1 call1 [CExp (XPre "delete" (XId "b"))];
      small_with (sum1 "+" "1") test1 (block [CExp (XId "b")]) loop1;
      small_with (sum1 "+" "1") (negated test1) call1 loop1;
      small_with (sum1 "+" "2") test1 call1 loop1 ].
Proof.
  split; [exact ex_world_rearranges|]. split; [exact small_sol_program|]. split; [exact (proj2 small_narrow)|].
  destruct small_sol_lean as (A & B & C). split; [exact A|]. split; [exact B|]. split; [exact small_sol_safe|]. split; [exact small_short|].
  split; [exact C|]. split; [exact small_full|]. split; [reflexivity|exact small_mutants_read].
Qed.

(** Without the proviso: the mutant of "a - b * c" that should be "a - (b + c)"
    is written "a - b + c" and read as "(a - b) + c", which is no edit of one
    operator. *)
Example C95_other_program :
  unit_node None (sum_sol (sum_of "-" "*")) sum_sol_node /\ forallb top_spelled (sum_sol (sum_of "-" "*")) = true /\ lean sum_sol_node = true /\ uncommented sum_sol_node /\
  exists ast' mr, In (ast', mr) (mutants (fst (generate (solidity_files ex_env) ex_world sum_params 20 sum_sol_node ex_rng))) /\
    unit_node None (sum_sol (sum_of "-" "+")) (without_comments ast') /\ sol_print true ast' = Ok sum_text /\
    reads sum_text (sum_sol (XBin "+" (XBin "-" (XId "a") (XId "b")) (XId "c"))).
Proof. exact sum_reread. Qed.
