(** Documentation of inline assembly: C116.  [exec (std_geo oc) (sol_emit c n) st]
    is the text written for the node [n] from the printer state [st], with the
    new state. *)
From Coq Require Import String Ascii List NArith Bool.
From Verif Require Import Base Json Printer SolPrinter SpecPrinter SpecSolRead SpecDoc SpecAsmDoc AsmDoc.
Import ListNotations.
Open Scope string_scope.
Open Scope list_scope.

(** C116.  An assembly block with documentation is printed as a comment after
    three slashes (on every line of it), with the words of the documentation in
    order, a line break, the indentation, and the block without documentation,
    printed from there; the two have the same tokens.  This holds for every
    text.  The state is at the beginning of a line, at the indentation, as for
    every statement. *)
Theorem C116_documented_assembly :
  forall oc c text n0 n st o st', noted_assembly text n0 n ->
  (p_ind st <= 36)%N -> p_col st = (1 + indent_length (std_geo oc) st)%N ->
  exec (std_geo oc) (sol_emit c n) st = Ok (o, st') ->
  exists comment s o0 ls, exec (std_geo oc) (sol_emit c n0) s = Ok (o0, st') /\ p_ind s = p_ind st /\ p_col s = p_col st /\
    o = String.append comment (String.append nl (String.append (indent_string (std_geo oc) st) o0)) /\
    slash_comment ls comment /\ flat_map words ls = words text /\
    forall ts, lexes o ts <-> lexes o0 ts.
Proof. exact assembly_noted. Qed.
Print Assumptions C116_documented_assembly.

(** The highest indentation the printer has is 36. *)
Example C116_example : max_indent (std_geo true) = 36%N /\
  noted_assembly (String.append "@solidity memory-safe-assembly" (String.append nl "see lib/**/*.sol; x")) bare_asm
    (noted_asm (String.append "@solidity memory-safe-assembly" (String.append nl "see lib/**/*.sol; x"))) /\
  exec (std_geo true) (sol_emit sol_default (noted_asm (String.append "@solidity memory-safe-assembly" (String.append nl "see lib/**/*.sol; x")))) (PState 7 9 2) =
  Ok (fold_right String.append "" ["/// @solidity memory-safe-assembly see lib/**/*.sol; x"; nl; "        assembly {}"], PState 8 20 2).
Proof. split; [reflexivity|]. split; [apply noted_asm_noted|]. vm_compute. reflexivity. Qed.
