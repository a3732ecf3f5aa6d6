(** Doc strings of Vyper functions and modules: C115.  [g] is the geometry of a
    printer, [st] its row, column and indentation; [exec g (vy_emit c n) st] is
    the text written for the node [n], with the new state. *)
From Coq Require Import String Ascii List NArith ZArith Bool.
From Verif Require Import Base Json Printer VyPrinter SpecPrinter SpecVyText SpecVyDoc VyDocFacts VyDocClaims VyDocTree.
Import ListNotations.
Open Scope string_scope.
Open Scope list_scope.

(** C115.  A function with a doc string is printed as the function without it,
    with the doc string on a line of its own between the head and the first
    statement, at the margin of that statement; for a reader it is one string in
    three quotes, with the words of the doc string in order.  The full statement
    is about every text; it holds for the texts that can stand between three
    quotes as they are. *)
Theorem C115_function_doc_string_partial :
  forall g c text n0 n b bs st o st', (0 < g_page g)%N -> vc_decl_form c = false ->
  with_doc_string "FunctionDef" text n0 n -> fld n "body" (JArr (b :: bs)) -> plain_doc text ->
  exec g (vy_emit c n) st = Ok (o, st') ->
  exists head k doc tail st0,
    exec g (vy_emit c n0) st = Ok (String.append head (String "010" (String.append (space_string k) tail)), st0) /\
    o = String.append head (String "010" (String.append (space_string k) (String.append doc
          (String "010" (String "010" (String.append (space_string k) tail)))))) /\
    doc_literal (space_string k) text doc /\ p_col st' = p_col st0 /\ p_ind st' = p_ind st0.
Proof. exact function_doc. Qed.
Print Assumptions C115_function_doc_string_partial.

Example C115_function_example :
  with_doc_string "FunctionDef" quoting bare_def (doc_def quoting) /\ plain_doc quoting /\
  exec (std_geo true) (vy_emit (vy_default true (fun _ => "")) (doc_def quoting)) fresh =
  Ok (fold_right String.append "" ["def f():"; nl; "    """"""The ""first"" counter, see '''f'''"""""""; nl; nl; "    pass"], PState 4 9 0).
Proof. split; [apply doc_def_with|]. split; [exact quoting_plain|exact doc_def_text]. Qed.

(** A module with a doc string is printed as the doc string, an empty line and
    the module without it. *)
Theorem C115_module_doc_string_partial :
  forall g c text n0 n st o st', (0 < g_page g)%N -> (p_ind st <= max_indent g)%N -> p_col st = (1 + indent_length g st)%N ->
  with_doc_string "Module" text n0 n -> plain_doc text ->
  exec g (vy_emit c n) st = Ok (o, st') ->
  exists doc s o0, exec g (vy_emit c n0) s = Ok (o0, st') /\ p_col s = 1%N /\ p_ind s = p_ind st /\
    o = String.append doc (String "010" (String "010" o0)) /\ doc_literal (indent_string g st) text doc.
Proof. exact module_doc. Qed.
Print Assumptions C115_module_doc_string_partial.

Example C115_module_example : with_doc_string "Module" quoting bare_mod (doc_mod quoting) /\ plain_doc quoting /\
  exists o, vy_print true (fun _ => "") (doc_mod quoting) = Ok o /\
    o = fold_right String.append "" ["""""""The ""first"" counter, see '''f'''"""""""; nl; nl; "def f():"; nl; "    pass"; nl; nl].
Proof. split; [apply doc_mod_with|]. split; [exact quoting_plain|]. eexists. split; [vm_compute; reflexivity|reflexivity]. Qed.

(** A module whose functions have doc strings is printed as the module without
    them, with exactly these doc strings put in, in order, each on a line of its
    own at the margin of the statement it precedes. *)
Theorem C115_program_doc_strings_partial :
  forall g c texts n0 n st o st', (0 < g_page g)%N -> vc_decl_form c = false -> documented_module texts n0 n ->
  exec g (vy_emit c n) st = Ok (o, st') ->
  exists o0 st0, exec g (vy_emit c n0) st = Ok (o0, st0) /\ documents texts o0 o.
Proof. exact module_docs. Qed.
Print Assumptions C115_program_doc_strings_partial.

Example C115_program_example : documented_module [quoting] (two_defs bare_def) (two_defs (doc_def quoting)) /\
  exists o, vy_print true (fun _ => "") (two_defs (doc_def quoting)) = Ok o /\
    o = fold_right String.append "" ["""""""All"""""""; nl; nl; "def f():"; nl; "    """"""The ""first"" counter, see '''f'''"""""""; nl; nl; "    pass"; nl; nl;
      "def f():"; nl; "    pass"; nl; nl].
Proof. split; [exact two_defs_documented|]. eexists. split; [vm_compute; reflexivity|reflexivity]. Qed.

(** A text with a quote at its end gives a string that ends one quote too early;
    after a backslash at the end of the text the string does not end.  Vyper has
    other ways to write such a doc string (three apostrophes, an escape). *)
Theorem C115_doc_string_refuted : forall oc fl,
  (exists o left, vy_print oc fl (doc_mod trailing) = Ok (String.append quotes3 o) /\
     upto_quotes o = Some ("The counter ""x", String """" left)) /\
  (exists o, vy_print oc fl (doc_mod slashed) = Ok (String.append quotes3 o) /\ upto_quotes o = None) /\
  exists o left, vy_print oc fl (doc_def trailing) = Ok (String.append "def f():" (String.append nl (String.append "    " (String.append quotes3 o)))) /\
     upto_quotes o = Some ("The counter ""x", String """" left).
Proof. exact doc_string_refuted. Qed.
Print Assumptions C115_doc_string_refuted.
