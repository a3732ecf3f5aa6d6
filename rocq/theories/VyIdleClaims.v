(** Vyper mutants are not the original program. *)
From Coq Require Import String Ascii List NArith ZArith Bool Lia.
From Verif Require Import Base Json JsonFacts Rng MutationType Traverse OpCommon VyMutators Comments Language Generator SpecTree SpecMutation SpecLiteral SpecOps SpecTotal SpecAccept SpecGenerator
  CommentFacts Printer VyPrinter SpecPrinter SpecVyText SpecVyRead SpecVyEdit SpecVyIdle VyTextClaims VyReadClaims GenWitness Samples Witness KeepClaims VyEditFacts VyEditClaims VyEditDemo VyIdle VyNoteClaims.
Import ListNotations.
Open Scope string_scope.
Open Scope list_scope.

Lemma vy_reads_one : forall text l l', reads text l -> reads text l' -> l' = l.
Proof. intros text l l' (k & H) (k' & H'). specialize (H (k + k') ltac:(lia)). specialize (H' (k + k') ltac:(lia)). congruence. Qed.

Lemma vyper_mutants_differ : forall e W P fuel ast r l, rearranges (w_order W) ->
  cprogram_node l ast -> Forall no_interface l -> lean ast = true -> uncommented ast -> wf ast -> 2 <= length l ->
  (forall p n t, subtree p ast = Some n -> In t (rp_types P) -> vy_accepts e t n -> vy_crash_free t n) ->
  forall ast' mr t, In (ast', mr) (mutants (fst (generate (vyper_files e) W P fuel ast r))) -> small_ints ast' ->
  mr_type mr = Some t -> lively t l ->
  exists l', l' <> l /\
    forall oc fl h text, Forall (easy_def h) l' -> (N.of_nat h <= 36)%N -> narrow 150 (program_text 4 l') -> forallb spelled_def l' = true ->
      vy_print oc fl ast' = Ok text -> reads text l' /\ ~ reads text l.
Proof.
  intros e W P fuel ast r l Ho C Ni L U Wf Len Cf ast' mr t H Si Ht Lv.
  destruct (mutants_read e W P fuel ast r l Ho C Ni L U Wf Len Cf ast' mr H Si) as (t' & l' & Ht' & Ed & Rd).
  rewrite Ht in Ht'. injection Ht' as <-. pose proof (one_edit_changes t l l' Ed Lv) as Ne. exists l'. split; [exact Ne|].
  intros oc fl h text Ez Hh Na Sp Pr. pose proof (Rd oc fl h text Ez Hh Na Sp Pr) as R. split; [exact R|]. intros R'. exact (Ne (vy_reads_one _ _ _ R' R)).
Qed.

(** ** Checking that a program is lively *)

Definition option_exp (o : option vexp) : list thing := match o with Some e => [TE e] | None => [] end.
Definition tops (t : vtop) : list thing := match t with One e => [TE e] | Many l => map TE l end.
Definition option_top (o : option vtop) : list thing := match o with Some t => tops t | None => [] end.
Definition direct (t : thing) : list thing :=
  match t with
  | TE e =>
      match e with
      | VBin _ a b | VCmp _ a b => [TE a; TE b]
      | VLogic _ a b l => TE a :: TE b :: map TE l
      | VNot a | VInvert a | VNeg a | VAttr a _ => [TE a]
      | VSub a i l => TE a :: TE i :: map TE l
      | VCall f l kws => TE f :: map TE l ++ map (fun p => TE (snd p)) kws
      | VList l | VTuple l => map TE l
      | VDict l => map (fun p => TE (fst p)) l ++ map (fun p => TE (snd p)) l
      | _ => []
      end
  | TS s =>
      match s with
      | VsExpr e | VsRaise e | VsLog e => [TE e]
      | VsAssign t v => tops t ++ tops v
      | VsAug a _ b => [TE a; TE b]
      | VsAnn a b c => TE a :: TE b :: option_exp c
      | VsReturn o => option_top o
      | VsAssert a m => TE a :: option_exp m
      | VsIf e b o => TE e :: map TS b ++ map TS o
      | VsFor t i b => TE t :: TE i :: map TS b
      | _ => []
      end
  | TD d =>
      match d with
      | VdFun decs _ args ret body => map TE decs ++ flat_map (fun a => option_exp (va_type a) ++ option_exp (va_default a)) args ++ option_top ret ++ map TS body
      | VdVar x _ _ _ t v => TE x :: tops t ++ option_exp v
      | VdFields _ _ b | VdBlock _ _ b => map TS b
      | _ => []
      end
  | TP l => map TD l
  end.

Lemma mid_in : forall A B (f : A -> B) u x v, In (f x) (map f (u ++ x :: v)).
Proof. intros A B f u x v. apply in_map, in_or_app. right. now left. Qed.
Lemma mid_flat : forall A B (f : A -> list B) u x v y, In y (f x) -> In y (flat_map f (u ++ x :: v)).
Proof. intros A B f u x v y I. apply in_flat_map. exists x. split; [apply in_or_app; right; now left|exact I]. Qed.
Lemma top_in : forall e e' t t', top_step e e' t t' -> In (TE e) (tops t).
Proof. intros e e' t t' S. destruct S; cbn [tops]; [now left|apply (mid_in vexp thing TE)]. Qed.
Lemma direct_in : forall c c' t t', step c c' t t' -> In c (direct t).
Proof.
  intros c c' t t' S. destruct S; cbn [direct option_exp option_top]; try (cbn; tauto); try (match goal with H : top_step _ _ _ _ |- _ => apply top_in in H end);
    repeat (rewrite in_app_iff || cbn [In]); try tauto;
    try (pose proof (mid_in vexp thing TE u e v); tauto); try (pose proof (mid_in vstmt thing TS u s v); tauto); try (pose proof (mid_in vdef thing TD u d v); tauto).
  - pose proof (mid_in _ thing (fun p : string * vexp => TE (snd p)) u (x, e) v). cbn [snd] in H. tauto.
  - pose proof (mid_in _ thing (fun p : vexp * vexp => TE (fst p)) u (e, w) v). cbn [fst] in H. tauto.
  - pose proof (mid_in _ thing (fun p : vexp * vexp => TE (snd p)) u (k, e) v). cbn [snd] in H. tauto.
  - right. left. apply mid_flat. now left.
  - right. left. apply mid_flat. apply in_or_app. right. now left.
Qed.

Fixpoint reach (k : nat) (t : thing) : list thing :=
  t :: match k with O => [] | Datatypes.S k => flat_map (reach k) (direct t) end.
Fixpoint reached (k : nat) (t : thing) : bool :=
  match k with O => false | Datatypes.S k => forallb (reached k) (direct t) end.
Lemma inside_reach : forall x t, inside x t -> forall k, reached k t = true -> In x (reach k t).
Proof.
  intros x t I. induction I as [|c t S I IH]; intros k R; destruct k as [|k]; try discriminate R; [now left|].
  right. cbn [reached] in R. rewrite forallb_forall in R. pose proof (direct_in _ _ _ _ S) as D. apply in_flat_map. exists c. split; [exact D|exact (IH k (R c D))].
Qed.
Lemma lively_check : forall k t l, reached k (TP l) = true -> Forall (fun x => ~ idle t x) (reach k (TP l)) -> lively t l.
Proof. intros k t l R F x I. rewrite Forall_forall in F. exact (F x (inside_reach x _ I k R)). Qed.

(** ** Runs *)

(** "x - x" with its operands exchanged. *)
Definition same_vy : list vdef :=
  [VdVar (VName "a") true false false (One (VName "int128")) None;
   VdFun [] "f" [] None [VsReturn (Some (One (VBin "-" (VName "x") (VName "x"))))]].
Definition same_vy_node : json :=
  let nm := v_name 1 in
  v_module
    [ v_node "VariableDecl" 1 [("target", nm "a"); ("is_public", JBool true); ("is_constant", JBool false); ("is_immutable", JBool false);
                               ("annotation", nm "int128"); ("value", JNull)];
      v_node "FunctionDef" 1
        [ ("decorator_list", JArr []); ("name", JStr "f"); ("args", v_node "arguments" 1 [("args", JArr []); ("defaults", JArr [])]);
          ("returns", JNull); ("doc_string", JNull);
          ("body", JArr [v_return 1 (v_node "BinOp" 1 [("op", v_op 2 "Sub"); ("left", nm "x"); ("right", nm "x")])]) ] ].
Definition same_vy_params : run_params := run_on "src/x.vy" "out" 1 [Generic SwapOperatorArguments].
Definition same_vy_text : string := String.concat newline
  [ "# SwapOperatorArguments Mutator: Swapped 'code' for 'code'"; ""; "a: public(int128)"; ""; "def f():"; "    return x - x"; ""; "" ].

Lemma same_vy_program : program_node same_vy same_vy_node.
Proof.
  split; [reflexivity|]. split; [left; reflexivity|]. eexists. split; [reflexivity|].
  constructor; [|constructor; [|constructor]].
  - node.
  - split; [split; [reflexivity|split; [|split; [reflexivity|split; [|split; [|right; reflexivity]]]]]|].
    + eexists. split; [reflexivity|]. constructor.
    + eexists. split; [reflexivity|]. split; [reflexivity|]. split; [|split].
      * eexists. split; [reflexivity|]. apply Forall2_nil.
      * eexists. split; [reflexivity|]. apply Forall2_nil.
      * exists [], []. repeat constructor.
    + right. reflexivity.
    + eexists. split; [reflexivity|]. constructor; [node|constructor].
Qed.
Lemma same_vy_reread :
  rearranges (w_order ex_world) /\ cprogram_node same_vy same_vy_node /\ Forall no_interface same_vy /\ lean same_vy_node = true /\ uncommented same_vy_node /\ wf same_vy_node /\
  2 <= length same_vy /\
  exists ast' mr, In (ast', mr) (mutants (fst (generate (vyper_files ex_env) ex_world same_vy_params 20 same_vy_node ex_rng))) /\
    mr_type mr = Some (Generic SwapOperatorArguments) /\ small_ints ast' /\
    vy_print true (fun _ => "") ast' = Ok same_vy_text /\ reads same_vy_text same_vy.
Proof.
  split; [exact ex_world_rearranges|].
  split; [apply program_cprogram; exact same_vy_program|].
  split; [repeat constructor|]. split; [vm_compute; reflexivity|]. split; [apply uncommented_check; vm_compute; reflexivity|]. split; [apply wf_check; vm_compute; reflexivity|].
  split; [cbn; auto with arith|].
  remember (mutants (fst (generate (vyper_files ex_env) ex_world same_vy_params 20 same_vy_node ex_rng))) as l eqn:E. vm_compute in E. subst l.
  eexists. eexists. split; [left; reflexivity|]. split; [reflexivity|]. split; [apply small_check; vm_compute; reflexivity|]. 
  split; [vm_compute; reflexivity|]. exists 300. intros fuel Hf. replace fuel with (300 + (fuel - 300)) by lia. generalize (fuel - 300). clear. intros fuel. vm_compute. reflexivity.
Qed.

(** The program of C91's example has no parts that these kinds of edit could
    leave as they are. *)
Ltac not_idle := let H := fresh in intros H; inversion H; subst; try discriminate;
  repeat match goal with
  | B : body_edit _ _ _ |- _ => inversion B; clear B; subst; try discriminate
  | R : repeated_line _ _ |- _ => destruct R as (_ & ? & ? & ? & ? & R & _)
  | F : only_filler _ _ |- _ => destruct F as (_ & _ & F); inversion F
  | E : _ :: _ = _ ++ _ |- _ => symmetry in E
  end; cut_lists; try discriminate.
Lemma demo_vy_lively : forall t, In t [Generic ArithmeticBinaryOp; Generic IfStatement; Generic SwapOperatorArguments; Generic SwapFunctionArguments; Generic SwapLines] -> lively t demo_vy.
Proof.
  intros t I. apply (lively_check 20); [vm_compute; reflexivity|].
  match goal with |- Forall _ ?l => let m := eval vm_compute in l in change l with m end.
  cbn in I. repeat (destruct I as [I|I]; [subst t; repeat (constructor; [solve [not_idle]|]); try apply Forall_nil|]). destruct I.
Qed.
