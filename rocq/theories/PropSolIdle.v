(** Whether a Solidity mutant may be the original program: C96. *)
From Coq Require Import String Ascii List NArith ZArith Bool.
From Verif Require Import Base Json Rng MutationType Traverse OpCommon SolMutators Language Generator Printer SolPrinter
  SpecTree SpecMutation SpecOps SpecPrinter SpecTotal SpecAccept SpecGenerator SpecComments SpecLiteral SpecVyText SpecSolText SpecSolRead SpecSolEdit SpecSolNote SpecSolIdle
  SolTextClaims SolEditClaims SolEditDemo SolNoteDemo SolMutantClaims SolMutantDemo SolIdle SolIdleClaims SolIdleDemo GenWitness Samples.
Import ListNotations.
Open Scope string_scope.
Open Scope list_scope.

(** C96: a mutant may be the program that the run was started on: "a - a" with
    its operands exchanged. The text that is written for it is read as the
    original. *)
Theorem C96_solidity_mutants_differ_refuted :
  exists e W P fuel ast r l ast' mr text, rearranges (w_order W) /\
  unit_node None l ast /\ forallb top_spelled l = true /\ lean ast = true /\ uncommented ast /\
  In (ast', mr) (mutants (fst (generate (solidity_files e) W P fuel ast r))) /\
  unit_node None l (without_comments ast') /\ sol_print true ast' = Ok text /\ reads text l.
Proof.
  destruct same_reread as (A & B & C & D & E & ast' & mr & F & _ & G & H & I).
  exists ex_env, ex_world, same_params, 20, same_sol_node, ex_rng, same_sol, ast', mr, same_text.
  exact (conj A (conj B (conj C (conj D (conj E (conj F (conj G (conj H I)))))))).
Qed.
Print Assumptions C96_solidity_mutants_differ_refuted.

(** When the program has no idle part for the kind of the mutant, the mutant is
    another program, and the text printed for it, with its comments, is read as
    that program and not as the original. Missing for the whole claim: the idle
    parts, where it fails. *)
Theorem C96_solidity_mutants_differ_partial :
  forall e W P fuel license ast r l h, rearranges (w_order W) ->
  unit_node license l ast -> forallb top_spelled l = true -> lean ast = true -> uncommented ast ->
  (forall p n t, subtree p ast = Some n -> In t (rp_types P) -> sol_accepts t n -> sol_crash_free t n) ->
  (In (Generic DeleteStatement) (rp_types P) -> forall p v, subtree p ast = Some v -> is_sol "ExpressionStatement" v -> short_statement h v) ->
  forall ast' mr i t, In (ast', mr) (mutants (fst (generate (solidity_files e) W P fuel ast r))) ->
  mr_node mr = Some i -> ~ mutated_branch i ast ->
  (forall p b, subtree p ast = Some b -> is_sol "Block" b -> sol_id b = Some i -> ~ has_field b "statements" (JArr [])) ->
  mr_type mr = Some t -> lively t l ->
  exists l', l' <> l /\ unit_node license l' (without_comments ast') /\
  (oeasy one_line license -> Forall (easy_top_level h) l' -> (N.of_nat h <= 36)%N -> narrow 150 (unit_text 4 license l') -> forallb top_spelled l' = true ->
   forall oc text, sol_print oc ast' = Ok text -> reads text l' /\ ~ reads text l).
Proof. exact solidity_mutants_differ. Qed.
Print Assumptions C96_solidity_mutants_differ_partial.

(** The idle parts are exactly the ones that let an edit change nothing: with one
    of them in the program there is an edit of that kind that leaves it as it is. *)
Theorem C96_solidity_idle_parts :
  forall t l, one_edit t l l <-> exists x, inside x (TU l) /\ idle t x.
Proof. exact idle_exact. Qed.
Print Assumptions C96_solidity_idle_parts.

(** The program of C95's example, whose run has five mutants, has no idle parts
    for the kinds of four of them; nor for three kinds that exchange things. *)
Example C96_solidity_example :
  (forall t, In t [Generic ArithmeticBinaryOp; Generic IfStatement; Generic FunctionCall; Generic DeleteStatement;
                   Generic SwapOperatorArguments; Generic SwapFunctionArguments; Generic SwapLines] -> lively t small_sol) /\
  map (fun am => mr_type (snd am)) (mutants (fst (generate (solidity_files ex_env) ex_world sol_edit_params 20 small_sol_node ex_rng))) =
  [Some (Generic ArithmeticBinaryOp); Some (Generic DeleteStatement); Some (Generic FunctionCall); Some (Generic IfStatement); Some (Generic Integer)].
Proof. split; [exact small_lively|vm_compute; reflexivity]. Qed.

(** The text of the mutant of the refutation. *)
Example C96_solidity_same_text :
  same_text = String.concat newline
    ["contract C {"; "    function f() public {"; "        // SwapOperatorArguments Mutator: switched 'code' and 'code'"; "        return a - a;"; "    }"; "}"; ""; ""].
Proof. reflexivity. Qed.
