(** A Vyper mutant is the program with one edit: C91. *)
From Coq Require Import String Ascii List NArith ZArith Bool.
From Verif Require Import Base Json Rng MutationType Traverse OpCommon VyMutators Language Generator Printer VyPrinter
  SpecTree SpecMutation SpecPrinter SpecTotal SpecAccept SpecGenerator SpecVyText SpecVyRead SpecVyEdit
  VyTextClaims VyReadClaims VyEditClaims VyEditDemo GenWitness Samples.
Import ListNotations.
Open Scope string_scope.
Open Scope list_scope.

(** C91: [l] is the program the run was started on. Every mutant of the run stands
    for the program [l] with exactly one edit, and the edit is one of the kind that
    the record of the mutant names; the comment of the mutator changes nothing. *)
Theorem C91_vyper_mutants_are_one_edit :
  forall e W P fuel ast r l, rearranges (w_order W) ->
  cprogram_node l ast -> Forall no_interface l -> lean ast = true -> uncommented ast -> wf ast -> 2 <= length l ->
  (forall p n t, subtree p ast = Some n -> In t (rp_types P) -> vy_accepts e t n -> vy_crash_free t n) ->
  forall ast' mr, In (ast', mr) (mutants (fst (generate (vyper_files e) W P fuel ast r))) -> small_ints ast' ->
  exists t l', mr_type mr = Some t /\ In t (rp_types P) /\ one_edit t l l' /\ cprogram_node l' ast'.
Proof. exact mutants_edit. Qed.
Print Assumptions C91_vyper_mutants_are_one_edit.

(** The text of the mutant, read by the Vyper grammar, is the edited program. *)
Theorem C91_vyper_mutants_read_as_one_edit :
  forall e W P fuel ast r l, rearranges (w_order W) ->
  cprogram_node l ast -> Forall no_interface l -> lean ast = true -> uncommented ast -> wf ast -> 2 <= length l ->
  (forall p n t, subtree p ast = Some n -> In t (rp_types P) -> vy_accepts e t n -> vy_crash_free t n) ->
  forall ast' mr, In (ast', mr) (mutants (fst (generate (vyper_files e) W P fuel ast r))) -> small_ints ast' ->
  exists t l', mr_type mr = Some t /\ one_edit t l l' /\
    forall oc fl h text, Forall (easy_def h) l' -> (N.of_nat h <= 36)%N -> narrow 150 (program_text 4 l') -> forallb spelled_def l' = true ->
      vy_print oc fl ast' = Ok text -> reads text l'.
Proof. exact mutants_read. Qed.
Print Assumptions C91_vyper_mutants_read_as_one_edit.

(** The same for one application of an operator to any node of the tree. *)
Theorem C91_vyper_operators_make_one_edit :
  forall e t m p n ast ast1 fuel r d l,
  cprogram_node l ast -> Forall no_interface l -> lean ast = true -> uncommented ast -> wf ast -> 2 <= length l ->
  subtree p ast = Some n -> vy_crash_free t n -> vy_mutator_for e t = Some m -> mu_mutable m n = Ok true -> mu_mutate m fuel n r = Ok d ->
  small_ints (md_node d) -> replaced_at p (md_node d) ast ast1 ->
  exists l', one_edit t l l' /\ cprogram_node l' ast1 /\ Forall no_interface l'.
Proof. exact mutation_edit. Qed.
Print Assumptions C91_vyper_operators_make_one_edit.

(** A run with three mutants: "+" becomes "/", the test becomes "False", the 3
    becomes 4. *)
Example C91_example :
  rearranges (w_order ex_world) /\ cprogram_node demo_vy demo_vy_node /\ Forall no_interface demo_vy /\ lean demo_vy_node = true /\
  uncommented demo_vy_node /\ wf demo_vy_node /\ 2 <= length demo_vy /\
  (forall p n t, subtree p demo_vy_node = Some n -> In t (rp_types edit_params) -> vy_accepts ex_env t n -> vy_crash_free t n) /\
  Forall2 (fun am tl => shows am (fst tl) (String.concat newline (snd tl)))
    (mutants (fst (generate (vyper_files ex_env) ex_world edit_params 20 demo_vy_node ex_rng)))
    [ (Generic ArithmeticBinaryOp,
       [ "# ArithmeticBinaryOp Mutator: Changed 'code' to 'code'"; ""; "owner: public(immutable(address))"; ""; "@external";
         "def f(x: uint256, y: bool=True) -> (uint256, bool):"; "    if x > (1 / self.t[""k""]):"; "        return x, y"; "    else:";
         "        log Done(x, who=msg.sender)"; "    for i in range(3):"; "        x += 2"; ""; ""; "" ]);
      (Generic IfStatement,
       [ "# IfStatement Mutator: changed test condition 'code' to 'code'"; ""; "owner: public(immutable(address))"; ""; "@external";
         "def f(x: uint256, y: bool=True) -> (uint256, bool):"; "    if False:"; "        return x, y"; "    else:";
         "        log Done(x, who=msg.sender)"; "    for i in range(3):"; "        x += 2"; ""; ""; "" ]);
      (Generic Integer,
       [ "# Integer Mutator: changed 'code' to 'code'"; ""; "owner: public(immutable(address))"; ""; "@external";
         "def f(x: uint256, y: bool=True) -> (uint256, bool):"; "    if x > (1 + self.t[""k""]):"; "        return x, y"; "    else:";
         "        log Done(x, who=msg.sender)"; "    for i in range(4):"; "        x += 2"; ""; ""; "" ]) ].
Proof.
  split; [exact ex_world_rearranges|]. split; [apply VyNoteClaims.program_cprogram; exact demo_vy_program|]. split; [repeat constructor|].
  destruct demo_vy_lean as (A & B & C). split; [exact A|]. split; [exact B|]. split; [exact C|]. split; [cbn; auto with arith|].
  split; [exact demo_vy_safe|exact edit_mutants_shown].
Qed.

(** Edits that are none of their kind. *)
Example C91_not_edits :
  let f c := [VdVar (VName "a") true false false (One (VName "int128")) None; VdFun [] "f" [] None [VsIf c [VsWord "pass"] []; VsWord "pass"]] in
  one_edit (Generic IfStatement) (f (VName "b")) (f (VConst (Some true))) /\
  ~ one_edit (Generic IfStatement) (f (VName "b")) (f (VName "b")) /\
  ~ one_edit (Generic IfStatement) (f (VName "b")) (f (VName "c")).
Proof. exact if_edits. Qed.

(** A program of a single definition can lose it: then "pass" stands at the top
    level, and the text is no program. *)
Example C91_single_definition :
  exists m d text, vy_mutator_for ex_env (Generic DeleteStatement) = Some m /\ mu_mutable m single_vy_node = Ok true /\
    mu_mutate m 20 single_vy_node ex_rng = Ok d /\ vy_print true (fun _ => "") (md_node d) = Ok text /\
    text = String.concat newline ["# def f(): pass"; ""; "pass"; ""; ""] /\ read_program 600 text = None.
Proof. exact single_deleted. Qed.
