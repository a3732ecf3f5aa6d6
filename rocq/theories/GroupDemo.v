(** Mutants whose text groups differently, for C81. *)
From Coq Require Import String Ascii List NArith ZArith Arith Bool Lia.
From Verif Require Import Base Json JsonFacts Rng Permissions MutationType Traverse OpCommon SolMutators VyMutators Language Printer SolPrinter Samples
  SpecTree SpecMutation SpecOps SpecAccept SpecPrinter TraverseFacts2 TraverseFacts3 SpecSolText SolTextClaims Witness SpecGroup GroupFacts LocalDemo GroupClaims.
Import ListNotations.
Open Scope string_scope.
Open Scope list_scope.

Definition fields_of (n : json) : list (string * json) := match n with JObj o => o | _ => [] end.
Lemma wg_check ast : forallb (fun pn : path * json => forallb (fun kv => Nat.leb (place_needs (snd pn) (fst kv)) (binding (snd kv))) (fields_of (snd pn))) (all_nodes ast) = true ->
  well_grouped ast.
Proof.
  intros H p n k v Hn F. rewrite forallb_forall in H. specialize (H (p, n) (proj2 (all_nodes_In ast p n) Hn)). cbn [snd] in H.
  rewrite forallb_forall in H. destruct n as [| | | | |o]; try discriminate. unfold has_field in F. cbn [oget fields_of] in *.
  assert (I : In (k, v) o).
  { clear - F. induction o as [|[k' v'] o IH]; [discriminate|]. cbn [assoc] in F. destruct (String.eqb_spec k k') as [->|N]; [injection F as ->; now left|right; now apply IH]. }
  specialize (H (k, v) I). cbn [fst snd] in H. now apply Nat.leb_le in H.
Qed.

Lemma not_wg_check ast : existsb (fun pn : path * json => existsb (fun kv => match oget (snd pn) (fst kv) with
    | Some v => negb (Nat.leb (place_needs (snd pn) (fst kv)) (binding v)) | None => false end) (fields_of (snd pn))) (all_nodes ast) = true ->
  ~ well_grouped ast.
Proof.
  intros H W. apply existsb_exists in H. destruct H as ([p n] & I & H). apply existsb_exists in H. destruct H as ([k w] & _ & H).
  cbn [fst snd] in H. destruct (oget n k) as [v|] eqn:E; [|discriminate]. apply negb_true_iff, Nat.leb_gt in H.
  pose proof (W p n k v (proj1 (all_nodes_In ast p n) I) E). lia.
Qed.

(** [contract C { function f() public { return e; } }] *)
Definition returning (e : sexp) : json :=
  ju None [PContract false "contract" "C" [] [MFun (SFun "function" "f" [] "public" false "" None [] [] (Some (CBlock false [CReturn (Some e)])))]].

Definition xa := XId "a". Definition xb := XId "b". Definition xc := XId "c".

(** The program, the index of the mutation, the random stream, and a program
    that is printed as the mutant is. *)
Definition regrouped_by (g : generic_mutation) : sexp * nat * rng * sexp :=
  match g with
  | ArithmeticBinaryOp => (XBin "-" xa (XBin "*" xb xc), 1, const_rng 0, XBin "+" (XBin "-" xa xb) xc)
  | BitwiseBinaryOp => (XBin "^" xa (XBin "&" xb xc), 1, const_rng 1, XBin "|" (XBin "^" xa xb) xc)
  | ComparisonBinaryOp => (XBin "==" xa (XBin "<" xb xc), 1, const_rng 0, XBin "==" (XBin "==" xa xb) xc)
  | LogicalBinaryOp => (XBin "||" xa (XBin "&&" (XBin "&&" xb xc) (XId "d")), 2, const_rng 1, XBin "||" (XBin "||" xa xb) (XBin "&&" xc (XId "d")))
  | SwapOperatorArguments => (XBin "-" (XBin "-" xa xb) xc, 0, const_rng 0, XBin "-" (XBin "-" xc xa) xb)
  | _ => (XBin "*" (XCall (XId "f") [XBin "+" xa xb]) xc, 0, const_rng 0, XBin "+" xa (XBin "*" xb xc))
  end.

Definition mutant_of (g : generic_mutation) : option json :=
  let '(e, i, r, _) := regrouped_by g in sol_mutant (Generic g) i (returning e) r.

Definition wg_b (ast : json) : bool :=
  forallb (fun pn : path * json => forallb (fun kv => Nat.leb (place_needs (snd pn) (fst kv)) (binding (snd kv))) (fields_of (snd pn))) (all_nodes ast).
Definition not_wg_b (ast : json) : bool :=
  existsb (fun pn : path * json => existsb (fun kv => match oget (snd pn) (fst kv) with
    | Some v => negb (Nat.leb (place_needs (snd pn) (fst kv)) (binding v)) | None => false end) (fields_of (snd pn))) (all_nodes ast).

Lemma regrouped_claim : forall t, In t regrouping_mutations ->
  exists e m i ast r ast' s other text, sol_mutator_for e t = Some m /\ well_grouped ast /\
    make_mutation ex_all sol_id m 10 i ast r = Ok (ast', s) /\
    ~ well_grouped ast' /\ well_grouped other /\ other <> ast' /\
    forall oc, sol_print oc ast' = Ok text /\ sol_print oc other = Ok text.
Proof.
  intros t I.
  assert (G : exists g, t = Generic g /\
    (let '(e, i, r, o) := regrouped_by g in
     match sol_mutant (Generic g) i (returning e) r, sol_print true (returning o) with
     | Some a, Ok w => wg_b (returning e) && not_wg_b a && wg_b (returning o) && prints_b (sol_print true a) w && prints_b (sol_print false a) w && prints_b (sol_print false (returning o)) w
     | _, _ => false
     end) = true).
  { cbn in I. decompose [or] I; subst; try contradiction; eexists; (split; [reflexivity|vm_compute; reflexivity]). }
  destruct G as (g & -> & G). destruct (regrouped_by g) as [[[e i] r] o].
  destruct (sol_mutant (Generic g) i (returning e) r) as [a|] eqn:M; [|discriminate G].
  destruct (sol_print true (returning o)) as [w| | |] eqn:P; [|discriminate G|discriminate G|discriminate G].
  do 5 (apply andb_true_iff in G; let X := fresh "X" in destruct G as (G & X)).
  apply sol_mutant_made in M. destruct M as (m & s & Hm & Hs).
  assert (N : ~ well_grouped a) by (apply not_wg_check; assumption). assert (W : well_grouped (returning o)) by (apply wg_check; assumption).
  exists ex_env, m, i, (returning e), r, a, s, (returning o), w.
  refine (conj Hm (conj (wg_check _ G) (conj Hs (conj N (conj W (conj _ _)))))); [intros E; apply N; rewrite <- E; exact W|].
  assert (E : forall x, prints_b x w = true -> x = Ok w) by (clear; intros [y| | |] Y; try discriminate; apply String.eqb_eq in Y; now subst).
  intros []; split; try (apply E; assumption). exact P.
Qed.

(** ** Examples *)
Definition grouped_demo_mutant : json := match sol_mutant (Generic IfStatement) 1 demo_sol_node (const_rng 2) with Some a => a | None => JNull end.
Lemma grouped_demo : (exists m s, sol_mutator_for ex_env (Generic IfStatement) = Some m /\
    make_mutation ex_all sol_id m 10 1 demo_sol_node (const_rng 2) = Ok (grouped_demo_mutant, s)) /\
  well_grouped demo_sol_node /\ grouped_demo_mutant <> demo_sol_node.
Proof.
  refine (conj _ (conj _ _)).
  - apply sol_mutant_made. unfold grouped_demo_mutant.
    assert (H : match sol_mutant (Generic IfStatement) 1 demo_sol_node (const_rng 2) with Some _ => true | None => false end = true) by (vm_compute; reflexivity).
    destruct (sol_mutant (Generic IfStatement) 1 demo_sol_node (const_rng 2)); [reflexivity|discriminate H].
  - apply wg_check. vm_compute. reflexivity.
  - intros X. apply (f_equal (fun a => prints_b (sol_print true a) demo_text)) in X. vm_compute in X. discriminate X.
Qed.

Definition paren_b (ast : json) : bool :=
  forallb (fun pn : path * json => forallb (fun kv =>
    (Nat.eqb (place_needs (snd pn) (fst kv)) 0 || negb (string_at (snd kv) "nodeType" =?s "BinaryOperation")) &&
    (negb (string_at (snd pn) "nodeType" =?s "BinaryOperation") || negb (smem (fst kv) ["leftExpression"; "rightExpression"]) || Nat.leb 13 (binding (snd kv))))
    (fields_of (snd pn))) (all_nodes ast).
Lemma paren_check ast : wg_b ast = true -> paren_b ast = true -> parenthesised ast.
Proof.
  intros W H. split; [exact (wg_check _ W)|]. intros p n k v Hn F. unfold paren_b in H. rewrite forallb_forall in H.
  specialize (H (p, n) (proj2 (all_nodes_In ast p n) Hn)). cbn [snd] in H.
  rewrite forallb_forall in H. destruct n as [| | | | |o]; try discriminate. unfold has_field in F. cbn [oget fields_of] in *.
  assert (I : In (k, v) o).
  { clear - F. induction o as [|[k' v'] o IH]; [discriminate|]. cbn [assoc] in F. destruct (String.eqb_spec k k') as [->|N]; [injection F as ->; now left|right; now apply IH]. }
  specialize (H (k, v) I). cbn [fst snd] in H. apply andb_true_iff in H. destruct H as (H1 & H2). split.
  - intros Z B. unfold is_sol, has_field in B. unfold string_at in H1. rewrite B in H1. cbn in H1. rewrite orb_false_r in H1. apply Nat.eqb_eq in H1. contradiction.
  - intros (T & K). unfold is_sol, has_field in T. cbn [oget] in T. unfold string_at in H2. cbn [oget] in H2. rewrite T in H2.
    cbn [String.eqb Ascii.eqb Bool.eqb negb orb] in H2. apply Nat.leb_le. destruct K as [->| ->]; exact H2.
Qed.

(** [(a - b) * c], mutated to [(a - b) + c] and the like. *)
Definition paren_demo_node : json := returning (XBin "*" (XTuple [Some (XBin "-" xa xb)]) xc).
Lemma paren_demo : parenthesised paren_demo_node /\
  exists m ast' s, sol_mutator_for ex_env (Generic ArithmeticBinaryOp) = Some m /\
    make_mutation ex_all sol_id m 10 0 paren_demo_node (const_rng 0) = Ok (ast', s) /\ ast' <> paren_demo_node.
Proof.
  split; [apply paren_check; vm_compute; reflexivity|].
  assert (H : match sol_mutant (Generic ArithmeticBinaryOp) 0 paren_demo_node (const_rng 0) with Some a => prints_b (sol_print true a) (match sol_print true paren_demo_node with Ok w => w | _ => "" end) | None => true end = false)
    by (vm_compute; reflexivity).
  destruct (sol_mutant (Generic ArithmeticBinaryOp) 0 paren_demo_node (const_rng 0)) as [a|] eqn:M; [|discriminate H].
  destruct (sol_mutant_made _ _ _ _ _ M) as (m & s & Hm & Hs). exists m, a, s. split; [exact Hm|]. split; [exact Hs|].
  intros ->. revert H. vm_compute. discriminate.
Qed.

(** [a - b * c] is read as it stands. *)
Lemma row_demo : let n := jx (XBin "-" xa (XBin "*" xb xc)) in
  well_grouped n /\ operations n (Operation "-" (Operand (jx xa)) (Operation "*" (Operand (jx xb)) (Operand (jx xc)))).
Proof.
  cbv zeta. split; [apply wg_check; vm_compute; reflexivity|].
  apply (operations_binary _ _ (jx xa) (jx (XBin "*" xb xc))); try reflexivity; [constructor; discriminate|].
  apply (operations_binary _ _ (jx xb) (jx xc)); try reflexivity; constructor; discriminate.
Qed.
