(** Whether the text of a Vyper mutant has the parentheses it needs: C97. *)
From Coq Require Import String Ascii List NArith ZArith Bool.
From Verif Require Import Base Json Rng MutationType Traverse OpCommon VyMutators Language Generator Printer VyPrinter
  SpecTree SpecMutation SpecPrinter SpecTotal SpecAccept SpecGenerator SpecVyText SpecVyRead SpecVyEdit SpecVyIdle SpecVyTight
  VyTextClaims VyReadClaims VyEditClaims VyEditDemo VyIdleClaims VyTight VyTightClaims GenWitness Samples.
Import ListNotations.
Open Scope string_scope.
Open Scope list_scope.

(** C97: four kinds of edit leave out parentheses that are needed. Each has a run
    on a program that is itself printed well, with a mutant that stands for [l']
    and whose text is read as another program: "~x + y" becomes "~x ** y", which
    is "~(x ** y)"; "x ** ~y" becomes "~y ** x"; "0 ** y" becomes "-1 ** y";
    "g(not x) + y" becomes "not x + y". *)
Theorem C97_vyper_mutants_keep_grouping_refuted :
  forall t, In t [Generic ArithmeticBinaryOp; Generic SwapOperatorArguments; Generic Integer; Generic FunctionCall] ->
  exists W P fuel ast r l ast' mr text l' l2,
    rearranges (w_order W) /\ cprogram_node l ast /\ Forall no_interface l /\ lean ast = true /\ uncommented ast /\ wf ast /\ 2 <= length l /\
    Forall (easy_def 1) l /\ forallb spelled_def l = true /\
    In (ast', mr) (mutants (fst (generate (vyper_files ex_env) W P fuel ast r))) /\ mr_type mr = Some t /\ small_ints ast' /\
    one_edit t l l' /\ cprogram_node l' ast' /\ narrow 150 (program_text 4 l') /\ forallb spelled_def l' = true /\
    vy_print true (fun _ => "") ast' = Ok text /\ reads text l2 /\ l2 <> l'.
Proof. exact misread_found. Qed.
Print Assumptions C97_vyper_mutants_keep_grouping_refuted.

(** When the original program is one that the printer is up to, and has no loose
    part for the kind of the mutant, the text of the mutant is read as the program
    with the edit. Nothing is asked of the mutant but that its lines are short,
    and, where a statement was made up (Assignment, DeleteStatement), that it is
    written with Vyper's words. Missing for the whole claim: the loose parts, where
    it fails. *)
Theorem C97_vyper_mutants_keep_grouping_partial :
  forall e W P fuel ast r l h, rearranges (w_order W) ->
  cprogram_node l ast -> Forall no_interface l -> lean ast = true -> uncommented ast -> wf ast -> 2 <= length l ->
  (forall p n t, subtree p ast = Some n -> In t (rp_types P) -> vy_accepts e t n -> vy_crash_free t n) ->
  Forall (easy_def h) l -> (N.of_nat h <= 36)%N -> forallb spelled_def l = true ->
  forall ast' mr t, In (ast', mr) (mutants (fst (generate (vyper_files e) W P fuel ast r))) -> small_ints ast' ->
  mr_type mr = Some t -> tight t l ->
  exists l', one_edit t l l' /\ cprogram_node l' ast' /\
    forall oc fl text, (t = Generic Assignment \/ t = Generic DeleteStatement -> forallb spelled_def l' = true) -> narrow 150 (program_text 4 l') ->
      vy_print oc fl ast' = Ok text -> reads text l'.
Proof. exact tight_mutants_read. Qed.
Print Assumptions C97_vyper_mutants_keep_grouping_partial.

(** The loose parts are exactly those that let an edit lead out of the programs
    that the printer is up to. *)
Theorem C97_vyper_loose_parts :
  forall t l h, Forall (easy_def h) l -> forallb spelled_def l = true -> t <> Generic Assignment -> t <> Generic DeleteStatement ->
  (tight t l <-> forall l', one_edit t l l' -> Forall (easy_def h) l' /\ forallb spelled_def l' = true).
Proof. exact tight_exact. Qed.
Print Assumptions C97_vyper_loose_parts.

(** The program of C91's example is such a program, and has no loose parts for the
    kinds of its three mutants, nor for two other kinds. *)
Example C97_example :
  rearranges (w_order ex_world) /\ cprogram_node demo_vy demo_vy_node /\ Forall no_interface demo_vy /\ lean demo_vy_node = true /\
  uncommented demo_vy_node /\ wf demo_vy_node /\ 2 <= length demo_vy /\
  (forall p n t, subtree p demo_vy_node = Some n -> In t (rp_types edit_params) -> vy_accepts ex_env t n -> vy_crash_free t n) /\
  Forall (easy_def 2) demo_vy /\ forallb spelled_def demo_vy = true /\
  (forall t, In t [Generic ArithmeticBinaryOp; Generic IfStatement; Generic Integer; Generic SwapOperatorArguments; Generic FunctionCall] -> tight t demo_vy) /\
  map (fun am => mr_type (snd am)) (mutants (fst (generate (vyper_files ex_env) ex_world edit_params 20 demo_vy_node ex_rng))) =
  [Some (Generic ArithmeticBinaryOp); Some (Generic IfStatement); Some (Generic Integer)].
Proof.
  split; [exact ex_world_rearranges|]. split; [apply VyNoteClaims.program_cprogram; exact demo_vy_program|]. split; [repeat constructor|].
  destruct demo_vy_lean as (A & B & C). split; [exact A|]. split; [exact B|]. split; [exact C|]. split; [cbn; auto with arith|].
  split; [exact demo_vy_safe|]. split; [exact demo_vy_easy|]. split; [exact demo_vy_spelled|]. split; [exact demo_vy_tight|]. vm_compute. reflexivity.
Qed.
