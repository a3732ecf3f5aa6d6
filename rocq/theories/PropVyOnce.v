(** Whether a run writes one Vyper program twice: C100. *)
From Coq Require Import String Ascii List NArith ZArith Bool.
From Verif Require Import Base Json Rng MutationType Traverse OpCommon VyMutators Language Generator Printer VyPrinter
  SpecTree SpecMutation SpecPrinter SpecTotal SpecAccept SpecGenerator SpecVyText SpecVyRead SpecVyEdit SpecVyOnce
  VyTextClaims VyReadClaims VyEditClaims VyEditDemo VyOnce VyOnceClaims GenWitness Samples.
Import ListNotations.
Open Scope string_scope.
Open Scope list_scope.

(** C100: one run may write the same text twice, for two mutations of two
    different nodes: "g(g(x))" with the outer call replaced by its argument, and
    with the inner one replaced. *)
Theorem C100_vyper_programs_once_refuted :
  exists e W P fuel ast r l l' ast1 mr1 ast2 mr2 text, rearranges (w_order W) /\ cprogram_node l ast /\ lean ast = true /\ uncommented ast /\ wf ast /\
  mutants (fst (generate (vyper_files e) W P fuel ast r)) = [(ast1, mr1); (ast2, mr2)] /\ mr_index mr1 <> mr_index mr2 /\ small_ints ast1 /\ small_ints ast2 /\
  vy_print true (fun _ => "") ast1 = Ok text /\ vy_print true (fun _ => "") ast2 = Ok text /\ reads text l'.
Proof.
  destruct calls_vy_written as (A & B & C & D & E & ast1 & mr1 & ast2 & mr2 & H).
  exists ex_env, ex_world, calls_vy_params, 20, calls_vy_node, calls_vy_rng, (calls_vy (g_of (g_of (VName "x")))), (calls_vy (g_of (VName "x"))), ast1, mr1, ast2, mr2, calls_vy_text.
  exact (conj A (conj B (conj C (conj D (conj E H))))).
Qed.
Print Assumptions C100_vyper_programs_once_refuted.

(** Two mutants of a run that replaced an operator stand for different programs,
    whatever the program of the run. Missing for the whole claim: the other
    kinds, for which it fails. *)
Theorem C100_vyper_programs_once_partial :
  forall e W P fuel ast r, rearranges (w_order W) -> lean ast = true ->
  forall j1 j2 ast1 mr1 t1 l1 ast2 mr2 t2 l2,
  let written := mutants (fst (generate (vyper_files e) W P fuel ast r)) in
  nth_error written j1 = Some (ast1, mr1) -> nth_error written j2 = Some (ast2, mr2) -> j1 <> j2 ->
  mr_type mr1 = Some t1 -> In t1 operator_kinds -> cprogram_node l1 ast1 ->
  mr_type mr2 = Some t2 -> In t2 operator_kinds -> cprogram_node l2 ast2 -> l1 <> l2.
Proof. exact operators_once. Qed.
Print Assumptions C100_vyper_programs_once_partial.

(** Of a program, they are two different edits, and their texts are read as two
    different programs. Missing as above. *)
Theorem C100_vyper_texts_once_partial :
  forall e W P fuel ast r l, rearranges (w_order W) ->
  cprogram_node l ast -> Forall no_interface l -> lean ast = true -> uncommented ast -> wf ast -> 2 <= length l ->
  (forall p n t, subtree p ast = Some n -> In t (rp_types P) -> vy_accepts e t n -> vy_crash_free t n) ->
  forall j1 j2 ast1 mr1 t1 ast2 mr2 t2,
  let written := mutants (fst (generate (vyper_files e) W P fuel ast r)) in
  let fits := fun h l' => Forall (easy_def h) l' /\ narrow 150 (program_text 4 l') /\ forallb spelled_def l' = true in
  nth_error written j1 = Some (ast1, mr1) -> nth_error written j2 = Some (ast2, mr2) -> j1 <> j2 -> small_ints ast1 -> small_ints ast2 ->
  mr_type mr1 = Some t1 -> In t1 operator_kinds -> mr_type mr2 = Some t2 -> In t2 operator_kinds ->
  exists l1 l2, l1 <> l2 /\ one_edit t1 l l1 /\ one_edit t2 l l2 /\ cprogram_node l1 ast1 /\ cprogram_node l2 ast2 /\
  forall oc1 fl1 oc2 fl2 h text1 text2, (N.of_nat h <= 36)%N -> fits h l1 -> fits h l2 ->
    vy_print oc1 fl1 ast1 = Ok text1 -> vy_print oc2 fl2 ast2 = Ok text2 -> reads text1 l1 /\ reads text2 l2 /\ text1 <> text2.
Proof. exact vy_texts_once. Qed.
Print Assumptions C100_vyper_texts_once_partial.

(** A run with two such mutants. *)
Example C100_example :
  rearranges (w_order ex_world) /\ cprogram_node demo_vy demo_vy_node /\ Forall no_interface demo_vy /\ lean demo_vy_node = true /\
  uncommented demo_vy_node /\ wf demo_vy_node /\ 2 <= length demo_vy /\ incl (rp_types op_params) operator_kinds /\
  (forall p n t, subtree p demo_vy_node = Some n -> In t (rp_types op_params) -> vy_accepts ex_env t n -> vy_crash_free t n) /\
  Forall2 (fun am tl => shows am (fst tl) (String.concat newline (snd tl)))
    (mutants (fst (generate (vyper_files ex_env) ex_world op_params 20 demo_vy_node ex_rng)))
  [ (Generic ArithmeticBinaryOp,
     [ "# ArithmeticBinaryOp Mutator: Changed 'code' to 'code'"; ""; "owner: public(immutable(address))"; ""; "@external";
       "def f(x: uint256, y: bool=True) -> (uint256, bool):"; "    if x > (1 / self.t[""k""]):"; "        return x, y"; "    else:";
       "        log Done(x, who=msg.sender)"; "    for i in range(3):"; "        x += 2"; ""; ""; "" ]);
    (Generic ComparisonBinaryOp,
     [ "# ComparisonBinaryOp Mutator: Changed 'code' to 'code'"; ""; "owner: public(immutable(address))"; ""; "@external";
       "def f(x: uint256, y: bool=True) -> (uint256, bool):"; "    if x >= (1 + self.t[""k""]):"; "        return x, y"; "    else:";
       "        log Done(x, who=msg.sender)"; "    for i in range(3):"; "        x += 2"; ""; ""; "" ]) ].
Proof.
  split; [exact ex_world_rearranges|]. split; [apply VyNoteClaims.program_cprogram; exact demo_vy_program|]. split; [repeat constructor|].
  destruct demo_vy_lean as (A & B & C). split; [exact A|]. split; [exact B|]. split; [exact C|]. split; [cbn; auto with arith|].
  split; [intros t I; cbn in I |- *; tauto|exact op_run].
Qed.
