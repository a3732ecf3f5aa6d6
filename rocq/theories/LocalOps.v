(** The operators leave the type of the node alone. *)
From Coq Require Import String Ascii List NArith ZArith Arith Bool Lia.
From Verif Require Import Base Json JsonFacts Rng MutationType Traverse OpCommon SolMutators VyMutators OpFacts SolFacts.
Import ListNotations.
Open Scope list_scope.
Open Scope string_scope.

Lemma take_key_other n k k' v n0 : plain_key k = true -> k' <> k -> take_key n k = Some (v, n0) -> oget n0 k' = oget n k'.
Proof.
  intros Hk N. rewrite take_key_plain by exact Hk. destruct n; try discriminate.
  destruct (assoc k o); [|discriminate]. intros H. injection H as <- <-. cbn [oget]. now apply assoc_obj_set_other.
Qed.

Lemma set_key_at_other n k k' i v : plain_key k = true -> k' <> k -> oget (set_key_at n k i v) k' = oget n k'.
Proof.
  intros Hk N. rewrite set_key_at_plain by exact Hk. destruct n; try reflexivity.
  destruct (assoc k o) as [w|]; [|reflexivity]. destruct w; try reflexivity. cbn [oget]. now apply assoc_obj_set_other.
Qed.

Ltac untouched :=
  repeat first
  [ match goal with |- ?a = ?a => reflexivity end
  | rewrite oget_set_key_other by (plain || discriminate)
  | rewrite set_key_at_other by (plain || discriminate)
  | match goal with T : take_key ?n ?k = Some (?v, ?m) |- context [oget ?m ?k'] =>
      rewrite (take_key_other n k k' v m) by (plain || discriminate || exact T) end
  | match goal with
    | |- context [match ?x with _ => _ end] => is_var x; destruct x
    | |- context [match ?x with _ => _ end] => let E := fresh "E" in destruct x eqn:E
    end ].

Lemma sol_binop_type t ops e fuel n r d : sol_binop_mutate e t ops fuel n r = Ok d -> oget (md_node d) "nodeType" = oget n "nodeType".
Proof. intros H. unfold sol_binop_mutate in H. ok_inv H. all: cbn [md_node done]. all: unfold set_str. all: untouched. Qed.
Lemma sol_unary_type e fuel n r d : sol_unary_mutate e  fuel n r = Ok d -> oget (md_node d) "nodeType" = oget n "nodeType".
Proof. intros H. unfold sol_unary_mutate in H. ok_inv H. all: cbn [md_node done]. all: unfold set_str. all: untouched. Qed.
Lemma sol_assign_type e fuel n r d : sol_assign_mutate e  fuel n r = Ok d -> oget (md_node d) "nodeType" = oget n "nodeType".
Proof. intros H. unfold sol_assign_mutate in H. ok_inv H. all: cbn [md_node done]. all: unfold set_str. all: untouched. Qed.
Lemma sol_delete_type e fuel n r d : sol_delete_mutate e  fuel n r = Ok d -> oget (md_node d) "nodeType" = oget n "nodeType".
Proof. intros H. unfold sol_delete_mutate in H. destruct (take_key n "statements") as [[v n0]|] eqn:Ek; [|discriminate]. destruct v as [| | | |l|]; try discriminate. ok_inv H. all: cbn [md_node done]. all: unfold set_str. all: untouched. Qed.
Lemma sol_swapargs_type e fuel n r d : sol_swapargs_mutate e  fuel n r = Ok d -> oget (md_node d) "nodeType" = oget n "nodeType".
Proof. intros H. unfold sol_swapargs_mutate in H. destruct (take_key n "arguments") as [[v n0]|] eqn:Ek; [|discriminate]. destruct v as [| | | |l|]; try discriminate. ok_inv H. all: cbn [md_node done]. all: unfold set_str. all: untouched. Qed.
Lemma sol_if_type e fuel n r d : sol_if_mutate e  fuel n r = Ok d -> oget (md_node d) "nodeType" = oget n "nodeType".
Proof. intros H. unfold sol_if_mutate in H. ok_inv H. all: cbn [md_node done]. all: unfold set_str. all: untouched. Qed.
Lemma sol_int_type e fuel n r d : sol_int_mutate e  fuel n r = Ok d -> oget (md_node d) "nodeType" = oget n "nodeType".
Proof. intros H. unfold sol_int_mutate in H. ok_inv H. all: match goal with E : match _ with _ => _ end = Ok _ |- _ => ok_inv E end. all: cbn [md_node done]. all: unfold set_str. all: untouched. Qed.
Lemma sol_swapop_type e fuel n r d : sol_swapop_mutate e  fuel n r = Ok d -> oget (md_node d) "nodeType" = oget n "nodeType".
Proof. intros H. unfold sol_swapop_mutate in H. ok_inv H. all: cbn [md_node done]. all: unfold set_str. all: untouched. Qed.
Lemma sol_swaplines_type e fuel n r d : sol_swaplines_mutate e  fuel n r = Ok d -> oget (md_node d) "nodeType" = oget n "nodeType".
Proof. intros H. unfold sol_swaplines_mutate in H. destruct (take_key n "statements") as [[v n0]|] eqn:Ek; [|discriminate]. destruct v as [| | | |l|]; try discriminate. ok_inv H. all: cbn [md_node done]. all: unfold set_str. all: untouched. Qed.
Lemma sol_require_type e fuel n r d : sol_require_mutate e  fuel n r = Ok d -> oget (md_node d) "nodeType" = oget n "nodeType".
Proof. intros H. unfold sol_require_mutate in H. ok_inv H. all: cbn [md_node done]. all: unfold set_str. all: untouched. Qed.
Lemma sol_unchecked_type e fuel n r d : sol_unchecked_mutate e  fuel n r = Ok d -> oget (md_node d) "nodeType" = oget n "nodeType".
Proof. intros H. unfold sol_unchecked_mutate in H. destruct (take_key n "statements") as [[v n0]|] eqn:Ek; [|discriminate]. destruct v as [| | | |l|]; try discriminate. ok_inv H. all: cbn [md_node done]. all: unfold set_str. all: untouched. Qed.
Lemma sol_delegate_type e fuel n r d : sol_delegate_mutate e  fuel n r = Ok d -> oget (md_node d) "nodeType" = oget n "nodeType".
Proof. intros H. unfold sol_delegate_mutate in H. ok_inv H. all: cbn [md_node done]. all: unfold set_str. all: untouched. Qed.

Lemma sol_type_kept e t m fuel n r d : sol_mutator_for e t = Some m -> t <> Generic FunctionCall ->
  mu_mutate m fuel n r = Ok d -> oget (md_node d) "nodeType" = oget n "nodeType".
Proof.
  intros M NF H. unfold sol_mutator_for in M.
  destruct t as [[]|[]]; try (now destruct NF); injection M as <-; cbn [mu_mutate sol_binop sol_assign sol_delete sol_swapargs sol_if sol_int sol_swapop sol_swaplines sol_unary sol_require sol_unchecked sol_delegate] in H.
  all: eauto using sol_binop_type, sol_unary_type, sol_assign_type, sol_delete_type, sol_swapargs_type, sol_if_type, sol_int_type, sol_swapop_type, sol_swaplines_type, sol_require_type, sol_unchecked_type, sol_delegate_type.
Qed.

Lemma vy_binop_type t ops e fuel n r d : vy_binop_mutate e t ops fuel n r = Ok d -> oget (md_node d) "ast_type" = oget n "ast_type".
Proof. intros H. unfold vy_binop_mutate in H. ok_inv H. all: cbn [md_node done]. all: unfold set_str. all: untouched. Qed.
Lemma vy_assign_type e fuel n r d : vy_assign_mutate e  fuel n r = Ok d -> oget (md_node d) "ast_type" = oget n "ast_type".
Proof. intros H. unfold vy_assign_mutate in H. ok_inv H. all: cbn [md_node done]. all: unfold set_str. all: untouched. Qed.
Lemma vy_delete_type e fuel n r d : vy_delete_mutate e  fuel n r = Ok d -> oget (md_node d) "ast_type" = oget n "ast_type".
Proof. intros H. unfold vy_delete_mutate in H. destruct (take_key n "body") as [[v n0]|] eqn:Ek; [|discriminate]. destruct v as [| | | |l|]; try discriminate. ok_inv H. all: cbn [md_node done]. all: unfold set_str. all: untouched. Qed.
Lemma vy_swapargs_type e fuel n r d : vy_swapargs_mutate e  fuel n r = Ok d -> oget (md_node d) "ast_type" = oget n "ast_type".
Proof. intros H. unfold vy_swapargs_mutate in H. destruct (take_key n "args") as [[v n0]|] eqn:Ek; [|discriminate]. destruct v as [| | | |l|]; try discriminate. ok_inv H. all: cbn [md_node done]. all: unfold set_str. all: untouched. Qed.
Lemma vy_if_type e fuel n r d : vy_if_mutate e  fuel n r = Ok d -> oget (md_node d) "ast_type" = oget n "ast_type".
Proof. intros H. unfold vy_if_mutate in H. ok_inv H. all: cbn [md_node done]. all: unfold set_str. all: untouched. Qed.
Lemma vy_int_type e fuel n r d : vy_int_mutate e  fuel n r = Ok d -> oget (md_node d) "ast_type" = oget n "ast_type".
Proof. intros H. unfold vy_int_mutate in H. ok_inv H. all: match goal with E : match _ with _ => _ end = Ok _ |- _ => ok_inv E end. all: cbn [md_node done]. all: unfold set_str. all: untouched. Qed.
Lemma vy_swapop_type e fuel n r d : vy_swapop_mutate e  fuel n r = Ok d -> oget (md_node d) "ast_type" = oget n "ast_type".
Proof. intros H. unfold vy_swapop_mutate, vy_swapop_edit in H. ok_inv H. all: match goal with E : match _ with _ => _ end = Ok _ |- _ => ok_inv E end. all: cbn [md_node done]. all: unfold set_str. all: untouched. Qed.
Lemma vy_swaplines_type e fuel n r d : vy_swaplines_mutate e  fuel n r = Ok d -> oget (md_node d) "ast_type" = oget n "ast_type".
Proof. intros H. unfold vy_swaplines_mutate in H. destruct (take_key n "body") as [[v n0]|] eqn:Ek; [|discriminate]. destruct v as [| | | |l|]; try discriminate. ok_inv H. all: cbn [md_node done]. all: unfold set_str. all: untouched. Qed.

Lemma vy_type_kept e t m fuel n r d : vy_mutator_for e t = Some m -> t <> Generic FunctionCall -> t <> Generic UnaryOp ->
  mu_mutate m fuel n r = Ok d -> oget (md_node d) "ast_type" = oget n "ast_type".
Proof.
  intros M NF NU H. unfold vy_mutator_for in M.
  destruct t as [[]|[]]; try (now destruct NF); try (now destruct NU); try discriminate; injection M as <-;
    cbn [mu_mutate vy_binop vy_assign vy_delete vy_swapargs vy_if vy_int vy_swapop vy_swaplines] in H.
  all: eauto using vy_binop_type, vy_assign_type, vy_delete_type, vy_swapargs_type, vy_if_type, vy_int_type, vy_swapop_type, vy_swaplines_type.
Qed.
