(** Concrete cases for C82-C84. *)
From Coq Require Import String Ascii List NArith ZArith Bool Lia Arith Permutation.
From Verif Require Import Base Json Rng Permissions MutationType Traverse OpCommon SolMutators VyMutators Comments
  Language Paths Generator JsonFacts SpecTree SpecMutation SpecOps SpecTotal SpecAccept SpecOrder SpecJson SpecGenerator
  SpecReach SpecRun OpTotal OpClaims ReachFacts ReachOnly ReachVy RunReach ReachClaims Samples Witness GenWitness.
Import ListNotations.
Open Scope list_scope.
Open Scope string_scope.

(** [ok = done;], [x = a + b;], [f(a, b, c)] with three [uint8]s. *)
Definition bool_assignment : json := s_assign 1 "bool" (s_ident 2 "ok") (s_ident 3 "done").
Definition uint8_assignment : json := s_assign 120 "uint8" (s_ident 121 "x") sum_ab.
Definition three_args : list json := [s_typed "uint8" 3 "a"; s_typed "uint8" 4 "b"; s_typed "uint8" 5 "c"].
Definition three_call : json := s_call 1 (s_ident 2 "f") three_args.

Lemma ex_shuffles : shuffles (e_order ex_env).
Proof. intros ks. reflexivity. Qed.

Lemma assign_schema : sol_schema uint8_assignment.
Proof.
  split; [apply short_arrays_check; reflexivity|]. split; [no_field|]. split; [intros _; eexists; reflexivity|no_field].
Qed.
Lemma three_schema : sol_schema three_call.
Proof.
  split; [apply short_arrays_check; reflexivity|]. split; [no_field|]. split; [no_field|intros _; eexists; reflexivity].
Qed.

Lemma catalogue_example :
  printer_total ex_env /\ shuffles (e_order ex_env) /\ sol_schema uint8_assignment /\
  sol_crash_free (Generic Assignment) uint8_assignment /\
  (exists m, sol_mutator_for ex_env (Generic Assignment) = Some m /\ mu_mutable m uint8_assignment = Ok true) /\
  sol_outcome uint8_assignment (Generic Assignment) (gets "rightHandSide" (sol_number_literal 254) uint8_assignment) /\
  wf ex_if /\ vy_schema ex_if /\ vy_complete ex_if /\ vy_crash_free (Generic IfStatement) ex_if /\
  (exists m, vy_mutator_for ex_env (Generic IfStatement) = Some m /\ mu_mutable m ex_if = Ok true) /\
  vy_outcome ex_env ex_if (Generic IfStatement) (gets "test" (vy_bool_constant false) ex_if).
Proof.
  split; [exact ex_printer_total|]. split; [exact ex_shuffles|]. split; [exact assign_schema|].
  assert (Ht : sol_type_of uint8_assignment ("uint" ++ show_N 8)) by (eexists; split; reflexivity).
  split; [right; left; exists 8%N; split; [split; [reflexivity|discriminate]|exact Ht]|].
  split; [eexists; split; [reflexivity|vm_compute; reflexivity]|].
  split; [eapply so_uint; [|exact Ht|]; [split; [reflexivity|discriminate]|split; [discriminate|reflexivity]]|].
  destruct safe_example as (_ & _ & _ & _ & _ & H1 & H2 & H3 & H4).
  split; [exact H1|]. split; [exact H2|]. split; [split; [no_field|intros [H|H]; vm_compute in H; discriminate H]|].
  split; [exact H3|]. split; [exact H4|]. apply vo_if_const.
Qed.

Lemma values_witness :
  (exists m, sol_mutator_for ex_env (Generic Assignment) = Some m /\ mu_mutable m bool_assignment = Ok true /\
     sol_type_of bool_assignment "bool" /\
     never_gives m bool_assignment (gets "rightHandSide" (sol_bool_literal true) bool_assignment)) /\
  (exists m, sol_mutator_for ex_env (Generic Assignment) = Some m /\ mu_mutable m uint8_assignment = Ok true /\
     sol_type_of uint8_assignment "uint8" /\
     never_gives m uint8_assignment (gets "rightHandSide" (sol_number_literal 255) uint8_assignment)) /\
  (exists m, sol_mutator_for ex_env (Generic SwapFunctionArguments) = Some m /\ mu_mutable m three_call = Ok true /\
     has_field three_call "arguments" (JArr three_args) /\ Forall (fun x => sol_type_of x "uint8") three_args /\
     never_gives m three_call (gets_swapped "arguments" three_args 0 2 three_call)).
Proof.
  split; [|split].
  - eexists. split; [reflexivity|]. split; [vm_compute; reflexivity|].
    assert (Ht : sol_type_of bool_assignment "bool") by (eexists; split; reflexivity). split; [exact Ht|].
    eapply (sol_bool_never ex_env); [reflexivity|vm_compute; reflexivity|exact Ht].
  - eexists. split; [reflexivity|]. split; [vm_compute; reflexivity|].
    assert (Ht : sol_type_of uint8_assignment ("uint" ++ show_N 8)) by (eexists; split; reflexivity). split; [exact Ht|].
    eapply (sol_uint_never ex_env _ _ 8); [reflexivity|vm_compute; reflexivity|split; [reflexivity|discriminate]|exact Ht|].
    intros (_ & H). vm_compute in H. discriminate H.
  - eexists. split; [reflexivity|]. split; [vm_compute; reflexivity|]. split; [reflexivity|].
    assert (Ht : Forall (fun x => sol_type_of x "uint8") three_args) by (repeat constructor; eexists; split; reflexivity).
    split; [exact Ht|]. intros r fuel d Hd HP.
    eapply (sol_swapargs_pair ex_env) in HP; [|reflexivity|vm_compute; reflexivity|reflexivity| |auto|exact Hd].
    + destruct HP as (t & _ & (x & Hx & Hxt) & _ & Hno). injection Hx as <-.
      eapply (Hno 1); [auto|discriminate|reflexivity|].
      inversion Ht as [|? ? Ha Hr]; subst. inversion Hr as [|? ? Hb _]; subst.
      assert (t = "uint8") by exact (sol_type_unique _ _ _ Hxt Ha). subst t. exact Hb.
    + repeat constructor; simpl; intuition discriminate.
Qed.

(** The sum in function [f] of [ex_unit]. *)
Definition sum_place : path := [2; 0; 3; 0; 0; 2; 0; 0; 4].

Lemma ex_undisturbed file outdir n ts f : file_name file = Some f -> undisturbed ex_world (run_on file outdir n ts).
Proof. intros H. split; [reflexivity|]. split; [reflexivity|]. split; [exists f; exact H|reflexivity]. Qed.

Lemma run_example : exists c,
  rearranges (w_order ex_world) /\ undisturbed ex_world ex_params /\ run_counts ex_lang ex_world ex_params ex_unit c /\
  0 < rp_count ex_params /\ In arith (rp_types ex_params) /\ (N.of_nat (reported arith c) <= 2 ^ 64)%N /\
  (exists m, sol_mutator_for ex_env arith = Some m /\ mu_mutable m sum_ab = Ok true) /\
  subtree sum_place ex_unit = Some sum_ab /\ sol_schema sum_ab /\ open_to_run ex_params ex_unit sum_place /\
  sol_outcome sum_ab arith (gets "operator" (eq (JStr "**")) sum_ab) /\
  sol_outcome sum_ab arith (gets "operator" (eq (JStr "%")) sum_ab).
Proof.
  eexists. split; [exact ex_world_rearranges|]. split; [eapply ex_undisturbed; reflexivity|].
  split; [vm_compute; reflexivity|]. split; [apply Nat.lt_0_succ|]. split; [now left|]. split; [vm_compute; discriminate|].
  split; [eexists; split; [reflexivity|vm_compute; reflexivity]|]. split; [vm_compute; reflexivity|].
  split; [|split; [left; reflexivity|]].
  { split; [apply short_arrays_check; reflexivity|]. split; [intros _; split; eexists; reflexivity|]. split; no_field. }
  split; (eapply (so_binary _ ArithmeticBinaryOp _ "+"); [reflexivity|reflexivity|simpl; tauto|discriminate]).
Qed.

Lemma swap_example : printer_total ex_env /\ shuffles (e_order ex_env) /\ sol_schema three_call /\
  (exists m, sol_mutator_for ex_env (Generic SwapFunctionArguments) = Some m /\ mu_mutable m three_call = Ok true) /\
  has_field three_call "arguments" (JArr three_args) /\ NoDup three_args /\ first_two "uint8" three_args 0 1.
Proof.
  split; [exact ex_printer_total|]. split; [exact ex_shuffles|]. split; [exact three_schema|].
  split; [eexists; split; [reflexivity|vm_compute; reflexivity]|]. split; [reflexivity|].
  split; [repeat constructor; simpl; intuition discriminate|].
  split; [auto|]. split; [eexists; split; [reflexivity|eexists; split; reflexivity]|].
  split; [eexists; split; [reflexivity|eexists; split; reflexivity]|]. intros k z H1 H2. lia.
Qed.
