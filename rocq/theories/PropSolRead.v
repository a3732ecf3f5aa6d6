(** The text of a Solidity program is read back as that program: C92. *)
From Coq Require Import String Ascii List NArith ZArith Bool.
From Verif Require Import Base Json Printer SolPrinter SpecPrinter SpecLiteral SpecVyText SpecSolText SpecSolRead SolTextClaims SolReadClaims.
Import ListNotations.
Open Scope string_scope.
Open Scope list_scope.

(** C92: the text, for every indentation. *)
Theorem C92_solidity_text_reads_back :
  forall tab license l, oeasy one_line license -> forallb top_spelled l = true -> reads (unit_text tab license l) l.
Proof. exact unit_reads. Qed.
Print Assumptions C92_solidity_text_reads_back.

(** C92: what the program prints. *)
Theorem C92_printed_solidity_reads_back :
  forall oc license l n h, unit_node license l n -> oeasy one_line license -> Forall (easy_top_level h) l -> (N.of_nat h <= 36)%N ->
  narrow 150 (unit_text 4 license l) -> forallb top_spelled l = true ->
  exists text, sol_print oc n = Ok text /\ reads text l.
Proof. exact printed_reads. Qed.
Print Assumptions C92_printed_solidity_reads_back.

(** C92: hence two trees that are printed alike are the same program. *)
Theorem C92_same_text_same_program :
  forall oc b1 l1 n1 h1 b2 l2 n2 h2,
  unit_node b1 l1 n1 -> oeasy one_line b1 -> Forall (easy_top_level h1) l1 -> (N.of_nat h1 <= 36)%N -> narrow 150 (unit_text 4 b1 l1) -> forallb top_spelled l1 = true ->
  unit_node b2 l2 n2 -> oeasy one_line b2 -> Forall (easy_top_level h2) l2 -> (N.of_nat h2 <= 36)%N -> narrow 150 (unit_text 4 b2 l2) -> forallb top_spelled l2 = true ->
  sol_print oc n1 = sol_print oc n2 -> l1 = l2.
Proof. exact same_text. Qed.
Print Assumptions C92_same_text_same_program.

(** The hypotheses, and the reader on other texts. *)
Example C92_example :
  unit_node (Some "MIT") demo (ju (Some "MIT") demo) /\ oeasy one_line (Some "MIT") /\ Forall (easy_top_level 5) demo /\
  narrow 150 (unit_text 4 (Some "MIT") demo) /\ forallb top_spelled demo = true /\ read_unit 3000 demo_text = Some demo.
Proof.
  split; [exact demo_node|]. split; [exact (proj1 demo_easy)|]. split; [exact (proj2 demo_easy)|]. split; [rewrite demo_shown; exact demo_narrow|].
  split; [exact demo_spelled|exact demo_read].
Qed.
Example C92_reader :
  (forallb top_spelled small = true /\ read_unit 600 (unit_text 4 None small) = Some small /\
   read_unit 600 small_other = Some small /\ unit_text 4 None small <> small_other) /\
  read_unit 600 "contract C { uint256 x = = 1; }" = None /\ read_unit 600 "contract C { function f( }" = None /\
  read_unit 600 "contract C { function f() public { x + ; } }" = None /\ read_unit 600 "contract if { }" = None.
Proof. split; [exact small_read|exact refused]. Qed.

(** Without [easy_top_level] it fails: the array is printed as a tuple, and read
    as one. *)
Theorem C92_every_solidity_program_refuted :
  exists l1 n1 l2 n2,
  unit_node None l1 n1 /\ unit_node None l2 n2 /\ forallb top_spelled l1 = true /\ forallb top_spelled l2 = true /\ l1 <> l2 /\
  forall oc, exists text, sol_print oc n1 = Ok text /\ sol_print oc n2 = Ok text /\ reads text l2 /\ ~ reads text l1.
Proof. exact same_text_outside. Qed.
Print Assumptions C92_every_solidity_program_refuted.
