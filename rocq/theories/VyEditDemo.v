(** A run of the Vyper mutator, for the example of C91. *)
From Coq Require Import String Ascii List NArith ZArith Bool Lia.
From Verif Require Import Base Json JsonFacts Rng MutationType Traverse OpCommon VyMutators Comments Language Generator SpecTree SpecMutation SpecLiteral SpecOps SpecTotal SpecAccept SpecGenerator
  CommentFacts Printer VyPrinter SpecPrinter SpecVyText SpecVyRead SpecVyEdit VyTextClaims VyReadClaims GenWitness Samples Witness KeepClaims VyEditFacts.
Import ListNotations.
Open Scope string_scope.
Open Scope list_scope.

(** ** A run *)

Lemma uncommented_check : forall n, forallb (fun x => negb (is_ast "Comment" x)) (subtrees n) = true -> uncommented n.
Proof.
  intros n H p x S A. rewrite forallb_forall in H. specialize (H x (subtrees_In _ _ _ S)). apply is_vy_get in A. unfold is_ast in H. rewrite A in H. discriminate H.
Qed.

Definition small_int_node (x : json) : bool :=
  negb (is_ast "Int" x) ||
  match oget x "value" with
  | Some (JNum (NumU u)) => in_i64 (Z.of_N u)
  | Some (JNum (NumI z)) => (z <? 0)%Z && in_i64 z
  | _ => false
  end.
Lemma small_check : forall n, forallb small_int_node (subtrees n) = true -> small_ints n.
Proof.
  intros n H p x S A. rewrite forallb_forall in H. specialize (H x (subtrees_In _ _ _ S)). apply is_vy_get in A. unfold small_int_node, is_ast in H. rewrite A in H. unfold fld.
  change (("Int" =?s "Int")) with true in H. cbn [negb orb] in H.
  destruct (oget x "value") as [[| |[u|z|z w]| | |]|]; try discriminate H.
  - exists (Z.of_N u). split; [|exact H]. unfold jint. destruct (Z.ltb_spec (Z.of_N u) 0); [lia|]. now rewrite N2Z.id.
  - apply andb_true_iff in H. destruct H as [H1 H2]. exists z. split; [|exact H2]. unfold jint. now rewrite H1.
Qed.

Definition edit_params : run_params := run_on "src/x.vy" "out" 3 [Generic ArithmeticBinaryOp; Generic IfStatement; Generic Integer].

Definition crash_free_b (x : json) : bool :=
  match oget x "value" with
  | Some (JNum (NumU u)) => (u <? 1000)%N
  | Some (JNum _) => false
  | _ => true
  end.
Lemma demo_vy_safe : forall p n t, subtree p demo_vy_node = Some n -> In t (rp_types edit_params) -> vy_accepts ex_env t n -> vy_crash_free t n.
Proof.
  assert (H : forallb crash_free_b (subtrees demo_vy_node) = true) by (vm_compute; reflexivity). rewrite forallb_forall in H.
  intros p n t S I _. specialize (H n (subtrees_In _ _ _ S)). cbn in I. destruct I as [<-|[<-|[<-|[]]]]; try exact Logic.I.
  cbn [vy_crash_free vy_supported]. intros z Hz. unfold crash_free_b in H. unfold has_field in Hz. rewrite Hz in H. unfold jint in H.
  destruct (Z.ltb_spec z 0); [discriminate H|]. apply N.ltb_lt in H. lia.
Qed.

Lemma demo_vy_lean : lean demo_vy_node = true /\ uncommented demo_vy_node /\ wf demo_vy_node.
Proof. split; [vm_compute; reflexivity|]. split; [apply uncommented_check; vm_compute; reflexivity|apply wf_check; vm_compute; reflexivity]. Qed.

Definition shows (am : json * mutator_result) (t : mutation_type) (text : string) : Prop :=
  mr_type (snd am) = Some t /\ vy_print true (fun _ => "") (fst am) = Ok text /\ small_ints (fst am).
Lemma edit_mutants_shown : Forall2 (fun am tl => shows am (fst tl) (String.concat newline (snd tl)))
  (mutants (fst (generate (vyper_files ex_env) ex_world edit_params 20 demo_vy_node ex_rng)))
  [ (Generic ArithmeticBinaryOp,
     [ "# ArithmeticBinaryOp Mutator: Changed 'code' to 'code'"; ""; "owner: public(immutable(address))"; ""; "@external";
       "def f(x: uint256, y: bool=True) -> (uint256, bool):"; "    if x > (1 / self.t[""k""]):"; "        return x, y"; "    else:";
       "        log Done(x, who=msg.sender)"; "    for i in range(3):"; "        x += 2"; ""; ""; "" ]);
    (Generic IfStatement,
     [ "# IfStatement Mutator: changed test condition 'code' to 'code'"; ""; "owner: public(immutable(address))"; ""; "@external";
       "def f(x: uint256, y: bool=True) -> (uint256, bool):"; "    if False:"; "        return x, y"; "    else:";
       "        log Done(x, who=msg.sender)"; "    for i in range(3):"; "        x += 2"; ""; ""; "" ]);
    (Generic Integer,
     [ "# Integer Mutator: changed 'code' to 'code'"; ""; "owner: public(immutable(address))"; ""; "@external";
       "def f(x: uint256, y: bool=True) -> (uint256, bool):"; "    if x > (1 + self.t[""k""]):"; "        return x, y"; "    else:";
       "        log Done(x, who=msg.sender)"; "    for i in range(4):"; "        x += 2"; ""; ""; "" ]) ].
Proof.
  remember (mutants (fst (generate (vyper_files ex_env) ex_world edit_params 20 demo_vy_node ex_rng))) as l eqn:E. vm_compute in E. subst l.
  repeat (constructor; [split; [reflexivity|split; [vm_compute; reflexivity|apply small_check; vm_compute; reflexivity]]|]). constructor.
Qed.

(** A program of one function. *)
Definition single_vy_node : json :=
  v_module [ v_node "FunctionDef" 1
    [ ("decorator_list", JArr []); ("name", JStr "f"); ("args", v_node "arguments" 1 [("args", JArr []); ("defaults", JArr [])]);
      ("returns", JNull); ("doc_string", JNull); ("body", JArr [v_node "Pass" 1 []]) ] ].
Lemma single_deleted :
  exists m d text, vy_mutator_for ex_env (Generic DeleteStatement) = Some m /\ mu_mutable m single_vy_node = Ok true /\
    mu_mutate m 20 single_vy_node ex_rng = Ok d /\ vy_print true (fun _ => "") (md_node d) = Ok text /\
    text = String.concat newline ["# def f(): pass"; ""; "pass"; ""; ""] /\ read_program 600 text = None.
Proof.
  eexists. eexists. eexists. split; [reflexivity|]. split; [vm_compute; reflexivity|]. split; [vm_compute; reflexivity|]. split; [vm_compute; reflexivity|].
  split; vm_compute; reflexivity.
Qed.

(** Which programs are one edit away. *)
Ltac cut_lists := repeat match goal with
  | H : _ :: _ = _ :: _ |- _ => injection H as ? ?; subst
  | H : _ :: _ = [] |- _ => discriminate H
  | H : [] = _ :: _ |- _ => discriminate H
  | H : _ :: _ = _ ++ _ |- _ => symmetry in H
  | H : [] = _ ++ _ |- _ => symmetry in H
  | H : ?u ++ _ :: _ = [] |- _ => destruct u; discriminate H
  | H : ?u ++ _ :: _ = _ :: _ |- _ => destruct u; cbn [app] in *
  end.
Ltac no_edit := repeat (cut_lists; try discriminate; match goal with
  | H : vy_edit _ _ _ |- _ => inversion H; clear H; subst
  | H : step _ _ _ _ |- _ => inversion H; clear H; subst
  | H : top_step _ _ _ _ |- _ => inversion H; clear H; subst
  | H : edited _ _ _ |- _ => inversion H; clear H; subst
  end).
Lemma if_edits :
  let f c := [VdVar (VName "a") true false false (One (VName "int128")) None; VdFun [] "f" [] None [VsIf c [VsWord "pass"] []; VsWord "pass"]] in
  one_edit (Generic IfStatement) (f (VName "b")) (f (VConst (Some true))) /\
  ~ one_edit (Generic IfStatement) (f (VName "b")) (f (VName "b")) /\
  ~ one_edit (Generic IfStatement) (f (VName "b")) (f (VName "c")).
Proof.
  cbv zeta. split; [|split].
  - eapply ed_inside; [exact (st_program [_] _ _ [])|]. eapply ed_inside; [exact (st_fun_body _ _ _ _ [] _ _ [_])|]. apply ed_here. constructor.
  - intros H. unfold one_edit in H. no_edit.
  - intros H. unfold one_edit in H. no_edit.
Qed.
