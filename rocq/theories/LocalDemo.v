(** Mutants of the sample programs, for the examples of C79-C81. *)
From Coq Require Import String Ascii List NArith ZArith Arith Bool Lia.
From Verif Require Import Base Json JsonFacts Rng Permissions MutationType Traverse OpCommon SolMutators VyMutators Language Printer SolPrinter VyPrinter Samples
  SpecTree SpecMutation SpecOps SpecTotal SpecAccept SpecPrinter SpecLocal SpecSolLocal SpecVyLocal TraverseFacts2 TraverseFacts3 OpFacts SolFacts AcceptFacts OpClaims
  EmitFacts SolEmit VyEmit IdealFacts LocalFacts LocalOps LocalText LocalClaims SpecSolText SolTextClaims VyTextClaims Witness.
Import ListNotations.
Open Scope string_scope.
Open Scope list_scope.

Definition demo_sol_node : json := ju (Some "MIT") demo.

(** The [i]-th mutant. *)
Definition sol_mutant (t : mutation_type) (i : nat) (ast : json) (r : rng) : option json :=
  match sol_mutator_for ex_env t with
  | Some m => match make_mutation ex_all sol_id m 10 i ast r with Ok (a, _) => Some a | _ => None end
  | None => None
  end.
Definition vy_mutant (t : mutation_type) (i : nat) (ast : json) (r : rng) : option json :=
  match vy_mutator_for ex_env t with
  | Some m => match make_mutation ex_all vy_id m 10 i ast r with Ok (a, _) => Some a | _ => None end
  | None => None
  end.


Lemma never_under_check : forall keys (P : json -> Prop) f ast, (forall x, P x -> f x = true) ->
  forallb (fun pn : path * json => match keeper (fst pn) ast with Some k => negb (f (snd pn) && smem k keys) | None => true end) (all_nodes ast) = true ->
  never_under keys P ast.
Proof.
  intros keys P f ast F H p x k Hx Px K I. rewrite forallb_forall in H. specialize (H (p, x) (proj2 (all_nodes_In ast p x) Hx)).
  cbn [fst snd] in H. rewrite K, (F x Px) in H. cbn [andb] in H. apply negb_true_iff in H. rewrite (proj2 (smem_In k keys) I) in H. discriminate.
Qed.

Fixpoint nodes_above (p : path) (j : json) : list json :=
  match p with
  | [] => []
  | i :: p => j :: match subtree [i] j with Some v => nodes_above p v | None => [] end
  end.

Lemma above_In : forall p j y, above p j y -> In y (nodes_above p j).
Proof.
  intros p j y (q & r & -> & N & H). revert j H. induction q as [|i q IH]; intros j H.
  - destruct r as [|i r]; [contradiction|]. cbn in H. injection H as ->. now left.
  - cbn [app nodes_above]. right. change (i :: q) with ([i] ++ q)%list in H. rewrite subtree_app in H.
    destruct (subtree [i] j) as [v|]; [|discriminate]. now apply IH.
Qed.

Lemma only_below_check : forall (Q P : json -> Prop) f g ast, (forall x, P x -> f x = true) -> (forall y, g y = true -> Q y) ->
  forallb (fun pn : path * json => negb (f (snd pn)) || forallb g (nodes_above (fst pn) ast)) (all_nodes ast) = true ->
  only_below Q P ast.
Proof.
  intros Q P f g ast F G H p x y Hx Px A. rewrite forallb_forall in H. specialize (H (p, x) (proj2 (all_nodes_In ast p x) Hx)).
  cbn [fst snd] in H. rewrite (F x Px) in H. cbn [negb orb] in H. rewrite forallb_forall in H. apply G, H, above_In, A.
Qed.

Lemma is_type_true ty x : is_sol ty x -> is_type ty x = true.
Proof. apply is_type_spec. Qed.

Definition vy_op_b (x : json) : bool :=
  match oget x "ast_type" with Some (JStr t) => smem t ["BinOp"; "BoolOp"; "Compare"] | _ => false end.
Lemma vy_op_true class x : vy_binary class x -> vy_op_b x = true.
Proof.
  intros (H & _). unfold vy_op_b. unfold is_vy, has_field in H. destruct H as [H|[H|H]]; rewrite H; reflexivity.
Qed.

Definition vy_not_comment_b (y : json) : bool := match oget y "ast_type" with Some (JStr t) => negb (t =?s "Comment") | _ => true end.
Lemma vy_not_comment_true y : vy_not_comment_b y = true -> no_vy_comment y.
Proof.
  unfold vy_not_comment_b, no_vy_comment. intros H E. apply get_str_Some in E; [|reflexivity]. rewrite E in H. discriminate.
Qed.

Definition sorted_b (x : json) : bool :=
  match oget x "op" with
  | Some o => match oget o "ast_type" with
    | Some (JStr t) => Bool.eqb (match oget x "ast_type" with Some (JStr s) => s =?s "BoolOp" | _ => false end) (smem t ["And"; "Or"])
    | _ => true
    end
  | None => true
  end.
Lemma vy_sorted_check ast : forallb (fun pn : path * json => sorted_b (snd pn)) (all_nodes ast) = true -> vy_sorted ast.
Proof.
  intros H p x o t Hx O T. rewrite forallb_forall in H. specialize (H (p, x) (proj2 (all_nodes_In ast p x) Hx)). cbn [snd] in H.
  unfold sorted_b in H. rewrite O in H. apply get_str_Some in T; [|reflexivity]. rewrite T in H. apply eqb_prop in H.
  rewrite <- smem_In, <- H, (get_str_Some x "ast_type" "BoolOp" eq_refl). destruct (oget x "ast_type") as [v|]; [|split; discriminate].
  destruct v; try (split; discriminate). split; intros E; [injection E as ->; apply String.eqb_refl|apply String.eqb_eq in E; now subst].
Qed.

Lemma simple_check : forall l, forallb (fun c => match c with Flow _ _ | FlowOf _ _ | Abort _ => false | Tok s => negb (str_contains "010" s) | _ => true end) l = true -> simple_requests l.
Proof.
  intros l H. rewrite forallb_forall in H. split.
  - apply Forall_forall. intros c I. specialize (H c I). destruct c; cbn; easy.
  - apply Forall_forall. intros w I. apply in_flat_map in I. destruct I as (c & I & J). specialize (H c I). destruct c; try contradiction.
    destruct J as [<-|[]]. now apply negb_true_iff in H.
Qed.

Definition demo_sol_mutant : json := match sol_mutant (Generic ArithmeticBinaryOp) 2 demo_sol_node ex_rng with Some a => a | None => JNull end.
Definition demo_vy_mutant : json := match vy_mutant (Generic ArithmeticBinaryOp) 0 demo_vy_node ex_rng with Some a => a | None => JNull end.

Lemma sol_mutant_made : forall t i ast r a, sol_mutant t i ast r = Some a ->
  exists m s, sol_mutator_for ex_env t = Some m /\ make_mutation ex_all sol_id m 10 i ast r = Ok (a, s).
Proof.
  intros t i ast r a H. unfold sol_mutant in H. destruct (sol_mutator_for ex_env t) as [m|]; [|discriminate].
  destruct (make_mutation ex_all sol_id m 10 i ast r) as [[b s]| | |] eqn:E; try discriminate. injection H as ->. exists m, s. now split.
Qed.
Lemma vy_mutant_made : forall t i ast r a, vy_mutant t i ast r = Some a ->
  exists m s, vy_mutator_for ex_env t = Some m /\ make_mutation ex_all vy_id m 10 i ast r = Ok (a, s).
Proof.
  intros t i ast r a H. unfold vy_mutant in H. destruct (vy_mutator_for ex_env t) as [m|]; [|discriminate].
  destruct (make_mutation ex_all vy_id m 10 i ast r) as [[b s]| | |] eqn:E; try discriminate. injection H as ->. exists m, s. now split.
Qed.

Definition prints_b (x : res string) (t : string) : bool := match x with Ok s => s =?s t | _ => false end.

Lemma demo_sol_made : exists m s, sol_mutator_for ex_env (Generic ArithmeticBinaryOp) = Some m /\
  make_mutation ex_all sol_id m 10 2 demo_sol_node ex_rng = Ok (demo_sol_mutant, s).
Proof.
  apply sol_mutant_made. unfold demo_sol_mutant.
  assert (H : match sol_mutant (Generic ArithmeticBinaryOp) 2 demo_sol_node ex_rng with Some _ => true | None => false end = true) by (vm_compute; reflexivity).
  destruct (sol_mutant (Generic ArithmeticBinaryOp) 2 demo_sol_node ex_rng); [reflexivity|discriminate].
Qed.
Lemma demo_sol_shown : demo_sol_mutant <> demo_sol_node /\ never_under sol_inspected (sol_binary arithmetic) demo_sol_node /\
  simple_requests (sol_emit sol_default demo_sol_node) /\ simple_requests (sol_emit sol_default demo_sol_mutant) /\
  text_of_requests 0 (sol_emit sol_default demo_sol_node) demo_text.
Proof.
  split; [|split; [|split; [|split]]].
  - intros X. apply (f_equal (fun a => prints_b (sol_print true a) demo_text)) in X. vm_compute in X. discriminate.
  - apply (never_under_check _ _ (is_type "BinaryOperation")); [intros x (T & _); now apply is_type_true|vm_compute; reflexivity].
  - apply simple_check. vm_compute. reflexivity.
  - apply simple_check. vm_compute. reflexivity.
  - assert (E : demo_text = ideal 4 0 (sol_emit sol_default demo_sol_node)) by (vm_compute; reflexivity).
    rewrite E. apply text_ideal, simple_check. vm_compute. reflexivity.
Qed.

Lemma demo_vy_made : exists m s, vy_mutator_for ex_env (Generic ArithmeticBinaryOp) = Some m /\
  make_mutation ex_all vy_id m 10 0 demo_vy_node ex_rng = Ok (demo_vy_mutant, s).
Proof.
  apply vy_mutant_made. unfold demo_vy_mutant.
  assert (H : match vy_mutant (Generic ArithmeticBinaryOp) 0 demo_vy_node ex_rng with Some _ => true | None => false end = true) by (vm_compute; reflexivity).
  destruct (vy_mutant (Generic ArithmeticBinaryOp) 0 demo_vy_node ex_rng); [reflexivity|discriminate].
Qed.
Lemma demo_vy_mutant_shown oc fl : demo_vy_mutant <> demo_vy_node /\ vy_sorted demo_vy_node /\ never_under vy_inspected (vy_binary vy_arithmetic) demo_vy_node /\
  only_below no_vy_comment (vy_binary vy_arithmetic) demo_vy_node /\
  simple_requests (vy_emit (vy_default oc fl) demo_vy_node) /\ simple_requests (vy_emit (vy_default oc fl) demo_vy_mutant) /\
  text_of_requests 0 (vy_emit (vy_default oc fl) demo_vy_node) demo_vy_text.
Proof.
  refine (conj _ (conj _ (conj _ (conj _ (conj _ (conj _ _)))))). 
  - intros X. apply (f_equal (fun a => prints_b (vy_print true (fun _ => "") a) demo_vy_text)) in X. vm_compute in X. discriminate.
  - apply vy_sorted_check. vm_compute. reflexivity.
  - apply (never_under_check _ _ vy_op_b); [exact (vy_op_true _)|vm_compute; reflexivity].
  - apply (only_below_check _ _ vy_op_b vy_not_comment_b); [exact (vy_op_true _)|exact vy_not_comment_true|vm_compute; reflexivity].
  - apply simple_check. vm_compute. reflexivity.
  - apply simple_check. vm_compute. reflexivity.
  - assert (E : demo_vy_text = ideal 4 0 (vy_emit (vy_default oc fl) demo_vy_node)) by (vm_compute; reflexivity).
    rewrite E. apply text_ideal, simple_check. vm_compute. reflexivity.
Qed.
