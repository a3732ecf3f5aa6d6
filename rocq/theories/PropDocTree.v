(** Whole Solidity programs with documentation: C114. *)
From Coq Require Import String Ascii List NArith Bool.
From Verif Require Import Base Json Printer SolPrinter SpecPrinter SpecLiteral SpecVyText SpecSolText SpecSolRead SpecSolEdit SpecSolNote SpecDoc
  SolTextClaims SolEditDemo SolNoteDemo DocClaims DocTree DocDemo.
Import ListNotations.
Open Scope string_scope.
Open Scope list_scope.

(** C114.  [n] is the tree of the program [l], [n1] that tree with comments in
    its lists of statements and members (C94), [n2] the latter with
    documentation on contracts, functions, modifiers and variables.  What is
    printed is read as [l]. *)
Theorem C114_documented_program_partial :
  forall oc license l n n1 n2 h text,
  unit_node license l n -> noted h n n1 -> unit_doc n1 n2 -> oeasy one_line license -> Forall (easy_top_level h) l ->
  (N.of_nat h <= 36)%N -> narrow 150 (unit_text 4 license l) -> forallb top_spelled l = true ->
  sol_print oc n2 = Ok text -> reads text l.
Proof. exact documented_reads. Qed.
Print Assumptions C114_documented_program_partial.

Example C114_example :
  unit_node (Some "MIT") small_sol small_sol_node /\ noted 5 small_sol_node remarked_node /\ unit_doc remarked_node described_node /\
  oeasy one_line (Some "MIT") /\ Forall (easy_top_level 5) small_sol /\ narrow 150 (unit_text 4 (Some "MIT") small_sol) /\
  forallb top_spelled small_sol = true /\ sol_print true described_node = Ok described_text.
Proof.
  split; [exact small_sol_program|]. split; [exact small_remarked|]. split; [exact described_unit|]. split; [reflexivity|].
  split; [exact small_easy|]. split; [exact (proj1 small_narrow)|]. split; [exact (proj2 small_narrow)|exact described_printed].
Qed.

(** With the end of a comment in the documentation the text can be no program at
    all, or another program. *)
Theorem C114_documented_program_refuted :
  unit_node None plain_sol (ju None plain_sol) /\ Forall (easy_top_level 5) plain_sol /\ forallb top_spelled plain_sol = true /\
  (exists t, sol_print true (noted_sol glob_note) = Ok t /\ forall l, ~ reads t l) /\
  (exists t, sol_print true (noted_sol smuggling) = Ok t /\ reads t [PContract false "contract" "D" [] []; PContract false "contract" "C" [] []] /\ ~ reads t plain_sol).
Proof. exact documentation_escapes. Qed.
Print Assumptions C114_documented_program_refuted.

Example C114_refuted_trees : forall text, exists c c',
  fld (ju None plain_sol) "nodes" (JArr [c]) /\ fld (noted_sol text) "nodes" (JArr [c']) /\ documented (jdoc text) c c' /\ doc_node text (jdoc text).
Proof. exact noted_sol_documented. Qed.
