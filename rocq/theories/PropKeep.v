(** C86: mutants can be written. *)
From Coq Require Import String List NArith ZArith Bool Arith.
From Verif Require Import Base Json Rng MutationType Traverse OpCommon SolMutators VyMutators Printer SolPrinter VyPrinter
  Generator SpecTree SpecOps SpecGenerator SpecPrinter SpecPlain Samples GenWitness PlainClaims KeepClaims.
Import ListNotations.
Open Scope list_scope.
Open Scope string_scope.

(** C86.  Full statement: every mutant of a program that can be printed can be
    printed.  The code violates it: the comment on the mutation quotes the code,
    and a name of 150 characters in it does not fit on a line.  The run below
    prints the original and then lays out the comment forever, whatever the
    random numbers. *)
Theorem C86_mutants_print_refuted : exists ast P,
  sol_plain ast /\ everywhere sol_filled ast /\
  (forall oc, exists s, sol_print oc ast = Ok s) /\
  forall e W fuel r, prints_sol e -> writes_sol (e_oc e) W -> rearranges (w_order W) ->
    snd (generate (solidity_files e) W P (S fuel) ast r) = Diverge.
Proof. exact endless_run. Qed.
Print Assumptions C86_mutants_print_refuted.

(** What holds: a mutation makes no node irregular, and the only remark it adds
    is one comment. *)
Theorem C86_solidity_remarks : forall e W P fuel ast r ast' mr,
  everywhere sol_regular ast -> everywhere sol_filled ast -> rearranges (w_order W) ->
  In (ast', mr) (mutants (fst (generate (solidity_files e) W P fuel ast r))) ->
  everywhere sol_regular ast' /\
  exists text, forall t next, sol_says ast' t next -> sol_says ast t next \/ (t = text /\ next = "// ").
Proof. exact sol_remarks_lemma. Qed.
Print Assumptions C86_solidity_remarks.

Theorem C86_vyper_remarks : forall e W P fuel ast r ast' mr,
  everywhere vy_regular ast -> everywhere vy_filled ast -> rearranges (w_order W) ->
  In (ast', mr) (mutants (fst (generate (vyper_files e) W P fuel ast r))) ->
  everywhere vy_regular ast' /\
  exists text, forall t next, vy_says ast' t next -> vy_says ast t next \/ (t = text /\ next = "# ").
Proof. exact vy_remarks_lemma. Qed.
Print Assumptions C86_vyper_remarks.

(** So a mutant is printed when the words of that comment, and in Vyper those of
    a statement that was commented out, fit beside the deepest indentation. *)
Theorem C86_solidity_mutants_print_partial : forall e W P fuel ast r ast' mr oc k,
  sol_legible k ast -> everywhere sol_filled ast -> rearranges (w_order W) ->
  In (ast', mr) (mutants (fst (generate (solidity_files e) W P fuel ast r))) ->
  (forall t next, sol_says ast' t next -> sol_says ast t next \/ short_words k t) ->
  (4 * climb 0 (sol_emit sol_default ast') + k <= 142)%N -> (4 * climb 0 (sol_emit sol_default ast') < 142)%N ->
  exists s, sol_print oc ast' = Ok s.
Proof. exact sol_mutant_prints. Qed.
Print Assumptions C86_solidity_mutants_print_partial.

Theorem C86_vyper_mutants_print_partial : forall e W P fuel ast r ast' mr oc fl k,
  vy_legible k ast -> everywhere vy_filled ast -> rearranges (w_order W) ->
  In (ast', mr) (mutants (fst (generate (vyper_files e) W P fuel ast r))) ->
  (forall t next, vy_says ast' t next -> vy_says ast t next \/ short_words k t) ->
  everywhere (fun x => forall v, vy_commented_out x v -> forall oc c,
    exists t, print_text oc (vy_emit c v) = Ok t /\ short_words k t) ast' ->
  (4 * climb 0 (vy_emit (vy_default oc fl) ast') + k <= 142)%N -> (4 * climb 0 (vy_emit (vy_default oc fl) ast') < 142)%N ->
  exists s, vy_print oc fl ast' = Ok s.
Proof. exact vy_mutant_prints. Qed.
Print Assumptions C86_vyper_mutants_print_partial.

Example C86_example :
  (exists ast' mr, In (ast', mr) (mutants (fst (generate (solidity_files ex_env) ex_world ex_params 20 ex_unit ex_rng))) /\
     sol_legible 40 ex_unit /\ everywhere sol_filled ex_unit /\ rearranges (w_order ex_world) /\
     (exists t, sol_says ast' t "// ") /\
     (forall t next, sol_says ast' t next -> sol_says ex_unit t next \/ short_words 40 t) /\
     (4 * climb 0 (sol_emit sol_default ast') + 40 <= 142)%N /\ (4 * climb 0 (sol_emit sol_default ast') < 142)%N) /\
  (exists ast' mr, In (ast', mr) (mutants (fst (generate (vyper_files ex_env) ex_world vy_params 20 ex_module ex_rng))) /\
     vy_legible 40 ex_module /\ everywhere vy_filled ex_module /\
     (exists t, vy_says ast' t "# ") /\
     (forall t next, vy_says ast' t next -> vy_says ex_module t next \/ short_words 40 t) /\
     everywhere (fun x => forall v, vy_commented_out x v -> forall oc c,
       exists t, print_text oc (vy_emit c v) = Ok t /\ short_words 40 t) ast' /\
     (4 * climb 0 (vy_emit (vy_default true (fun _ => "")) ast') + 40 <= 142)%N /\
     (4 * climb 0 (vy_emit (vy_default true (fun _ => "")) ast') < 142)%N).
Proof. exact keep_example. Qed.

Example C86_world_example : forall oc,
  prints_sol (printing ex_env oc) /\ writes_sol (e_oc (printing ex_env oc)) (sol_world oc) /\ rearranges (w_order (sol_world oc)).
Proof. exact printing_example. Qed.
