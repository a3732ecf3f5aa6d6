(** Two mutants of a Vyper run, their programs and their texts: C100. *)
From Coq Require Import String Ascii List NArith ZArith Bool Lia.
From Verif Require Import Base Json JsonFacts Rng MutationType Traverse OpCommon VyMutators Comments Language Generator SpecTree SpecMutation SpecLiteral SpecOps SpecTotal SpecAccept SpecGenerator
  CommentFacts Printer VyPrinter SpecPrinter SpecVyText SpecVyRead SpecVyEdit SpecVyOnce VyTextClaims VyReadClaims GenWitness Samples Witness KeepClaims VyEditFacts VyEditClaims VyEditDemo VyNoteClaims VyOnce.
Import ListNotations.
Open Scope string_scope.
Open Scope list_scope.

Lemma vy_texts_once : forall e W P fuel ast r l, rearranges (w_order W) ->
  cprogram_node l ast -> Forall no_interface l -> lean ast = true -> uncommented ast -> wf ast -> 2 <= length l ->
  (forall p n t, subtree p ast = Some n -> In t (rp_types P) -> vy_accepts e t n -> vy_crash_free t n) ->
  forall j1 j2 ast1 mr1 t1 ast2 mr2 t2,
  let written := mutants (fst (generate (vyper_files e) W P fuel ast r)) in
  let fits := fun h l' => Forall (easy_def h) l' /\ narrow 150 (program_text 4 l') /\ forallb spelled_def l' = true in
  nth_error written j1 = Some (ast1, mr1) -> nth_error written j2 = Some (ast2, mr2) -> j1 <> j2 -> small_ints ast1 -> small_ints ast2 ->
  mr_type mr1 = Some t1 -> In t1 operator_kinds -> mr_type mr2 = Some t2 -> In t2 operator_kinds ->
  exists l1 l2, l1 <> l2 /\ one_edit t1 l l1 /\ one_edit t2 l l2 /\ cprogram_node l1 ast1 /\ cprogram_node l2 ast2 /\
  forall oc1 fl1 oc2 fl2 h text1 text2, (N.of_nat h <= 36)%N -> fits h l1 -> fits h l2 ->
    vy_print oc1 fl1 ast1 = Ok text1 -> vy_print oc2 fl2 ast2 = Ok text2 -> reads text1 l1 /\ reads text2 l2 /\ text1 <> text2.
Proof.
  intros e W P fuel ast r l Ho C Ni L U Wf Len Cf j1 j2 ast1 mr1 t1 ast2 mr2 t2 written fits N1 N2 D S1 S2 T1 I1 T2 I2.
  destruct (mutants_edit e W P fuel ast r l Ho C Ni L U Wf Len Cf ast1 mr1 (nth_error_In _ _ N1) S1) as (u1 & l1 & Q1 & _ & E1 & C1).
  destruct (mutants_edit e W P fuel ast r l Ho C Ni L U Wf Len Cf ast2 mr2 (nth_error_In _ _ N2) S2) as (u2 & l2 & Q2 & _ & E2 & C2).
  assert (u1 = t1) as -> by congruence. assert (u2 = t2) as -> by congruence.
  pose proof (operators_once e W P fuel ast r Ho L j1 j2 ast1 mr1 t1 l1 ast2 mr2 t2 l2 N1 N2 D T1 I1 C1 T2 I2 C2) as Dl.
  exists l1, l2. split; [exact Dl|]. split; [exact E1|]. split; [exact E2|]. split; [exact C1|]. split; [exact C2|].
  intros oc1 fl1 oc2 fl2 h text1 text2 Hh (F1 & G1 & K1) (F2 & G2 & K2) P1 P2.
  pose proof (printed_notes oc1 fl1 l1 ast1 h text1 C1 F1 Hh G1 K1 P1) as R1. pose proof (printed_notes oc2 fl2 l2 ast2 h text2 C2 F2 Hh G2 K2 P2) as R2.
  split; [exact R1|]. split; [exact R2|]. intros <-. exact (Dl (reads_one _ _ _ R1 R2)).
Qed.

(** ** One program twice *)

Definition calls_vy (e : vexp) : list vdef :=
  [VdVar (VName "a") true false false (One (VName "int128")) None; VdFun [] "f" [] None [VsReturn (Some (One e))]].
Definition g_of (e : vexp) : vexp := VCall (VName "g") [e] [].
Definition calls_vy_node : json :=
  let nm := v_name 1 in
  let call k x := v_node "Call" k [("func", nm "g"); ("args", JArr [x]); ("keywords", JArr [])] in
  v_module
    [ v_node "VariableDecl" 2 [("target", nm "a"); ("is_public", JBool true); ("is_constant", JBool false); ("is_immutable", JBool false);
                               ("annotation", nm "int128"); ("value", JNull)];
      v_node "FunctionDef" 3
        [ ("decorator_list", JArr []); ("name", JStr "f"); ("args", v_node "arguments" 4 [("args", JArr []); ("defaults", JArr [])]);
          ("returns", JNull); ("doc_string", JNull); ("body", JArr [v_return 5 (call 6%N (call 7%N (nm "x")))]) ] ].
Definition calls_vy_params : run_params := run_on "src/x.vy" "out" 2 [Generic FunctionCall].
Definition calls_vy_rng : rng := {| rstream := fun k => if Nat.eqb k 2 then 1%N else 0%N; rpos := 0 |}.
Definition calls_vy_text : string := String.concat newline
  ["a: public(int128)"; ""; "def f():"; "    # FunctionCall Mutator: replaced 'code' with 'code'"; "    return g(x)"; ""; ""].

Lemma calls_vy_program : program_node (calls_vy (g_of (g_of (VName "x")))) calls_vy_node.
Proof.
  split; [reflexivity|]. split; [left; reflexivity|]. eexists. split; [reflexivity|].
  constructor; [|constructor; [|constructor]].
  - node.
  - split; [split; [reflexivity|split; [|split; [reflexivity|split; [|split; [|right; reflexivity]]]]]|].
    + eexists. split; [reflexivity|]. constructor.
    + eexists. split; [reflexivity|]. split; [reflexivity|]. split; [|split].
      * eexists. split; [reflexivity|]. apply Forall2_nil.
      * eexists. split; [reflexivity|]. apply Forall2_nil.
      * exists [], []. repeat constructor.
    + right. reflexivity.
    + eexists. split; [reflexivity|]. constructor; [|constructor]. unfold g_of. node.
Qed.

Lemma calls_vy_written :
  rearranges (w_order ex_world) /\ cprogram_node (calls_vy (g_of (g_of (VName "x")))) calls_vy_node /\ lean calls_vy_node = true /\ uncommented calls_vy_node /\ wf calls_vy_node /\
  exists ast1 mr1 ast2 mr2,
    mutants (fst (generate (vyper_files ex_env) ex_world calls_vy_params 20 calls_vy_node calls_vy_rng)) = [(ast1, mr1); (ast2, mr2)] /\
    mr_index mr1 <> mr_index mr2 /\ small_ints ast1 /\ small_ints ast2 /\
    vy_print true (fun _ => "") ast1 = Ok calls_vy_text /\ vy_print true (fun _ => "") ast2 = Ok calls_vy_text /\ reads calls_vy_text (calls_vy (g_of (VName "x"))).
Proof.
  split; [exact ex_world_rearranges|]. split; [apply program_cprogram; exact calls_vy_program|]. split; [vm_compute; reflexivity|].
  split; [apply uncommented_check; vm_compute; reflexivity|]. split; [apply wf_check; vm_compute; reflexivity|].
  remember (mutants (fst (generate (vyper_files ex_env) ex_world calls_vy_params 20 calls_vy_node calls_vy_rng))) as l eqn:E. vm_compute in E. subst l.
  do 4 eexists. split; [reflexivity|]. split; [discriminate|]. split; [apply small_check; vm_compute; reflexivity|]. split; [apply small_check; vm_compute; reflexivity|].
  split; [vm_compute; reflexivity|]. split; [vm_compute; reflexivity|].
  exists 300. intros fuel Hf. replace fuel with (300 + (fuel - 300)) by lia. generalize (fuel - 300). clear. intros fuel. vm_compute. reflexivity.
Qed.

(** ** A run *)

Definition op_params : run_params := run_on "src/x.vy" "out" 4 [Generic ArithmeticBinaryOp; Generic ComparisonBinaryOp].
Lemma op_run :
  (forall p n t, subtree p demo_vy_node = Some n -> In t (rp_types op_params) -> vy_accepts ex_env t n -> vy_crash_free t n) /\
  Forall2 (fun am tl => shows am (fst tl) (String.concat newline (snd tl)))
    (mutants (fst (generate (vyper_files ex_env) ex_world op_params 20 demo_vy_node ex_rng)))
  [ (Generic ArithmeticBinaryOp,
     [ "# ArithmeticBinaryOp Mutator: Changed 'code' to 'code'"; ""; "owner: public(immutable(address))"; ""; "@external";
       "def f(x: uint256, y: bool=True) -> (uint256, bool):"; "    if x > (1 / self.t[""k""]):"; "        return x, y"; "    else:";
       "        log Done(x, who=msg.sender)"; "    for i in range(3):"; "        x += 2"; ""; ""; "" ]);
    (Generic ComparisonBinaryOp,
     [ "# ComparisonBinaryOp Mutator: Changed 'code' to 'code'"; ""; "owner: public(immutable(address))"; ""; "@external";
       "def f(x: uint256, y: bool=True) -> (uint256, bool):"; "    if x >= (1 + self.t[""k""]):"; "        return x, y"; "    else:";
       "        log Done(x, who=msg.sender)"; "    for i in range(3):"; "        x += 2"; ""; ""; "" ]) ].
Proof.
  split; [intros p n t _ I _; cbn in I; destruct I as [<-|[<-|[]]]; exact Logic.I|].
  remember (mutants (fst (generate (vyper_files ex_env) ex_world op_params 20 demo_vy_node ex_rng))) as l eqn:E. vm_compute in E. subst l.
  repeat (constructor; [split; [reflexivity|split; [vm_compute; reflexivity|apply small_check; vm_compute; reflexivity]]|]). constructor.
Qed.
