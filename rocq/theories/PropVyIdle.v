(** Whether a Vyper mutant may be the original program: C96. *)
From Coq Require Import String Ascii List NArith ZArith Bool.
From Verif Require Import Base Json Rng MutationType Traverse OpCommon VyMutators Language Generator Printer VyPrinter
  SpecTree SpecMutation SpecPrinter SpecTotal SpecAccept SpecGenerator SpecVyText SpecVyRead SpecVyEdit SpecVyIdle
  VyTextClaims VyReadClaims VyEditClaims VyEditDemo VyIdle VyIdleClaims GenWitness Samples.
Import ListNotations.
Open Scope string_scope.
Open Scope list_scope.

(** C96: a mutant may be the program that the run was started on: "x - x" with
    its operands exchanged. *)
Theorem C96_vyper_mutants_differ_refuted :
  exists e W P fuel ast r l ast' mr text, rearranges (w_order W) /\
  cprogram_node l ast /\ Forall no_interface l /\ lean ast = true /\ uncommented ast /\ wf ast /\ 2 <= length l /\
  In (ast', mr) (mutants (fst (generate (vyper_files e) W P fuel ast r))) /\ small_ints ast' /\
  vy_print true (fun _ => "") ast' = Ok text /\ reads text l.
Proof.
  destruct same_vy_reread as (A & B & C & D & E & F & G & ast' & mr & H & _ & I & J & K).
  exists ex_env, ex_world, same_vy_params, 20, same_vy_node, ex_rng, same_vy, ast', mr, same_vy_text.
  exact (conj A (conj B (conj C (conj D (conj E (conj F (conj G (conj H (conj I (conj J K)))))))))).
Qed.
Print Assumptions C96_vyper_mutants_differ_refuted.

(** When the program has no idle part for the kind of the mutant, the mutant is
    another program, and its text is read as that program and not as the
    original. Missing for the whole claim: the idle parts, where it fails. *)
Theorem C96_vyper_mutants_differ_partial :
  forall e W P fuel ast r l, rearranges (w_order W) ->
  cprogram_node l ast -> Forall no_interface l -> lean ast = true -> uncommented ast -> wf ast -> 2 <= length l ->
  (forall p n t, subtree p ast = Some n -> In t (rp_types P) -> vy_accepts e t n -> vy_crash_free t n) ->
  forall ast' mr t, In (ast', mr) (mutants (fst (generate (vyper_files e) W P fuel ast r))) -> small_ints ast' ->
  mr_type mr = Some t -> lively t l ->
  exists l', l' <> l /\
    forall oc fl h text, Forall (easy_def h) l' -> (N.of_nat h <= 36)%N -> narrow 150 (program_text 4 l') -> forallb spelled_def l' = true ->
      vy_print oc fl ast' = Ok text -> reads text l' /\ ~ reads text l.
Proof. exact vyper_mutants_differ. Qed.
Print Assumptions C96_vyper_mutants_differ_partial.

(** The idle parts are exactly the ones that let an edit change nothing. *)
Theorem C96_vyper_idle_parts :
  forall t l, one_edit t l l <-> exists x, inside x (TP l) /\ idle t x.
Proof. exact idle_exact. Qed.
Print Assumptions C96_vyper_idle_parts.

(** The program of C91's example, whose run has three mutants, has no idle parts
    for the kinds of two of them; nor for three kinds that exchange things. *)
Example C96_vyper_example :
  (forall t, In t [Generic ArithmeticBinaryOp; Generic IfStatement; Generic SwapOperatorArguments; Generic SwapFunctionArguments; Generic SwapLines] -> lively t demo_vy) /\
  map (fun am => mr_type (snd am)) (mutants (fst (generate (vyper_files ex_env) ex_world edit_params 20 demo_vy_node ex_rng))) =
  [Some (Generic ArithmeticBinaryOp); Some (Generic IfStatement); Some (Generic Integer)].
Proof. split; [exact demo_vy_lively|vm_compute; reflexivity]. Qed.
