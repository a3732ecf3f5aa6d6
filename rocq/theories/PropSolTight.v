(** Whether the text of a Solidity mutant has the parentheses it needs: C98. *)
From Coq Require Import String Ascii List NArith ZArith Bool.
From Verif Require Import Base Json Rng MutationType Traverse OpCommon SolMutators Language Generator Printer SolPrinter
  SpecTree SpecMutation SpecOps SpecPrinter SpecTotal SpecAccept SpecGenerator SpecComments SpecLiteral SpecVyText SpecSolText SpecSolRead SpecSolEdit SpecSolNote SpecSolIdle SpecSolTight
  SolTextClaims SolEditClaims SolEditDemo SolNoteDemo SolMutantDemo SolTight SolTightClaims GenWitness Samples.
Import ListNotations.
Open Scope string_scope.
Open Scope list_scope.

(** C98: seven kinds of edit leave out parentheses that are needed. Each has a run
    on a program that is itself printed well, with a mutant that stands for [l']
    and whose text is read as another program: the mutant of "x - y * z" that
    stands for "x - (y + z)" is written "x - y + z"; that of "x - y - z" with the
    operands of its first sign exchanged is written "z - x - y"; that of
    "g(x + y) * z" is written "x + y * z"; that of "-++x" is written "---x". *)
Theorem C98_solidity_mutants_keep_grouping_refuted :
  forall t, In t [Generic ArithmeticBinaryOp; Generic BitwiseBinaryOp; Generic ComparisonBinaryOp; Generic LogicalBinaryOp;
                  Generic SwapOperatorArguments; Generic FunctionCall; Generic UnaryOp] ->
  exists W P fuel ast r l ast' mr i text l' l2,
    rearranges (w_order W) /\ unit_node None l ast /\ forallb top_spelled l = true /\ lean ast = true /\ uncommented ast /\ Forall (easy_top_level 2) l /\
    In (ast', mr) (mutants (fst (generate (solidity_files ex_env) W P fuel ast r))) /\ mr_type mr = Some t /\ mr_node mr = Some i /\ ~ mutated_branch i ast /\
    one_edit t l l' /\ unit_node None l' (without_comments ast') /\ narrow 150 (unit_text 4 None l') /\
    sol_print true ast' = Ok text /\ reads text l2 /\ l2 <> l'.
Proof. exact sol_misread_found. Qed.
Print Assumptions C98_solidity_mutants_keep_grouping_refuted.

(** When the original program is one that the printer is up to, and has no loose
    part for the kind of the mutant, the text of the mutant is read as the program
    with the edit. Nothing is asked of the mutant but that its lines are short,
    and, where a number was made up (Assignment, Integer), that it is written as
    Solidity writes numbers. Missing for the whole claim: the loose parts, where it
    fails, and the branches and empty blocks that C95 leaves out. *)
Theorem C98_solidity_mutants_keep_grouping_partial :
  forall e W P fuel license ast r l h, rearranges (w_order W) ->
  unit_node license l ast -> forallb top_spelled l = true -> lean ast = true -> uncommented ast ->
  (forall p n t, subtree p ast = Some n -> In t (rp_types P) -> sol_accepts t n -> sol_crash_free t n) ->
  oeasy one_line license -> Forall (easy_top_level h) l -> (N.of_nat h + 2 <= 36)%N ->
  (In (Generic DeleteStatement) (rp_types P) -> forall p v, subtree p ast = Some v -> is_sol "ExpressionStatement" v -> short_statement (h + 2) v) ->
  forall ast' mr t i, In (ast', mr) (mutants (fst (generate (solidity_files e) W P fuel ast r))) ->
  mr_type mr = Some t -> tight t l -> mr_node mr = Some i -> ~ mutated_branch i ast ->
  (forall p b, subtree p ast = Some b -> is_sol "Block" b -> sol_id b = Some i -> ~ has_field b "statements" (JArr [])) ->
  exists l1 l', one_edit t l l1 /\ same_but_braces l1 l' /\ unit_node license l' (without_comments ast') /\
  forall oc text, (t = Generic Assignment \/ t = Generic Integer -> forallb top_spelled l1 = true) -> narrow 150 (unit_text 4 license l') ->
    sol_print oc ast' = Ok text -> reads text l'.
Proof. exact tight_sol_mutants_read. Qed.
Print Assumptions C98_solidity_mutants_keep_grouping_partial.

(** The loose parts are exactly those that let an edit lead out of the programs
    that the printer is up to; an "unchecked" takes one more level. *)
Theorem C98_solidity_loose_parts :
  forall t l h, Forall (easy_top_level h) l -> forallb top_spelled l = true -> t <> Generic Assignment -> t <> Generic Integer ->
  (tight t l <-> forall l', one_edit t l l' -> Forall (easy_top_level (S h)) l' /\ forallb top_spelled l' = true).
Proof. exact tight_exact. Qed.
Print Assumptions C98_solidity_loose_parts.

(** The program of C93's example is such a program, and has no loose parts for the
    kinds of its five mutants, nor for three other kinds. *)
Example C98_example :
  rearranges (w_order ex_world) /\ unit_node (Some "MIT") small_sol small_sol_node /\ forallb top_spelled small_sol = true /\
  lean small_sol_node = true /\ uncommented small_sol_node /\
  (forall p n t, subtree p small_sol_node = Some n -> In t (rp_types sol_edit_params) -> sol_accepts t n -> sol_crash_free t n) /\
  oeasy one_line (Some "MIT") /\ Forall (easy_top_level 3) small_sol /\
  (forall p v, subtree p small_sol_node = Some v -> is_sol "ExpressionStatement" v -> short_statement 5 v) /\
  (forall t, In t [Generic ArithmeticBinaryOp; Generic IfStatement; Generic FunctionCall; Generic DeleteStatement; Generic Integer;
                   Generic SwapOperatorArguments; Generic UnaryOp; Solidity UncheckedBlock] -> tight t small_sol) /\
  (forall i, ~ mutated_branch i small_sol_node) /\
  (forall i p b, subtree p small_sol_node = Some b -> is_sol "Block" b -> sol_id b = Some i -> ~ has_field b "statements" (JArr [])) /\
  map (fun am => mr_type (snd am)) (mutants (fst (generate (solidity_files ex_env) ex_world sol_edit_params 20 small_sol_node ex_rng))) =
  [Some (Generic ArithmeticBinaryOp); Some (Generic DeleteStatement); Some (Generic FunctionCall); Some (Generic IfStatement); Some (Generic Integer)].
Proof.
  split; [exact ex_world_rearranges|]. split; [exact small_sol_program|]. split; [exact (proj2 small_narrow)|].
  destruct small_sol_lean as (A & B & C). split; [exact A|]. split; [exact B|]. split; [exact small_sol_safe|]. split; [reflexivity|]. split; [exact small_easy_3|]. split; [exact small_short|].
  split; [exact small_tight|]. split; [exact C|]. split; [exact small_full|]. vm_compute. reflexivity.
Qed.
