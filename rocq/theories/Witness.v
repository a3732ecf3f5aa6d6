(** Witnesses for the refuted statements, and helpers for the examples. *)
From Coq Require Import String List NArith ZArith Bool Lia Arith.
From Verif Require Import Base Json Rng Permissions MutationType Traverse SpecTree SpecMutation
  TraverseFacts TraverseFacts3 OpCommon SolMutators VyMutators Comments Language Samples.
Import ListNotations.
Open Scope list_scope.

Definition ex_arith : mutator := sol_binop ex_env (Generic ArithmeticBinaryOp) arithmetic_operators.
Definition ex_map : mutator_map := [(Generic ArithmeticBinaryOp, ex_arith)].
Definition ex_all : permissions := permissions_for_functions [].


Lemma restriction_incomplete :
  exists ast p m, inside_named ["f"%string] ast p /\ accepted_at m ast p = true /\
    count_mutable_nodes (permissions_for_functions ["f"%string]) [(mu_type m, m)] ast = Ok [] /\
    (forall idm fuel i r, exists s,
       make_mutation (permissions_for_functions ["f"%string]) idm m fuel i ast r = Ok (ast, s)).
Proof.
  exists ex_recursive, [2; 0; 3; 0; 0; 2; 1; 0; 4], ex_arith.
  assert (Hc : count_mutable_nodes (permissions_for_functions ["f"%string]) [(mu_type ex_arith, ex_arith)]
                 ex_recursive = Ok []) by (vm_compute; reflexivity).
  split.
  { eexists _, "f"%string. split; [vm_compute; do 4 right; left; reflexivity|].
    split; [vm_compute; reflexivity|now left]. }
  split; [vm_compute; reflexivity|]. split; [exact Hc|].
  intros idm fuel i r.
  destruct (out_of_range_lemma _ _ _ _ (mu_type ex_arith) ex_arith Hc) with (idm := idm) (fuel := fuel) (i := i) (r := r)
    as (s & H & _).
  - constructor; [simpl; tauto|constructor].
  - now left.
  - unfold reported; simpl. apply le_0_n.
  - eauto.
Qed.

(** A decidable form of [not_nested]. *)
Definition named (names : list string) (n : json) : bool :=
  match name_of n with Some f => smem f names | None => false end.

Definition subtrees (j : json) : list json :=
  flat_map (fun p => match subtree p j with Some n => [n] | None => [] end) (positions j).

Definition not_nested_b (names : list string) (j : json) : bool :=
  forallb (fun x => if named names x
                    then forallb (fun y => negb (named names y)) (tl (subtrees x)) else true) (subtrees j).

Lemma subtrees_In p j n : subtree p j = Some n -> In n (subtrees j).
Proof.
  intros H. unfold subtrees. apply in_flat_map. exists p. split; [apply positions_subtree; eauto|].
  rewrite H. now left.
Qed.

Lemma subtrees_tl q x y : q <> [] -> subtree q x = Some y -> In y (tl (subtrees x)).
Proof.
  intros Hq H. unfold subtrees. rewrite positions_unfold. simpl.
  apply in_flat_map. exists q. split.
  - assert (Hi : In q (positions x)) by (apply positions_subtree; eauto).
    rewrite positions_unfold in Hi. destruct Hi as [<-|Hi]; [congruence|exact Hi].
  - rewrite H. now left.
Qed.

Lemma smem_true s l : In s l -> smem s l = true.
Proof.
  induction l as [|x l IH]; simpl; [tauto|]. intros [->|H]; [now rewrite String.eqb_refl|].
  destruct (String.eqb s x); auto.
Qed.

Lemma not_nested_check names j : not_nested_b names j = true -> not_nested names j.
Proof.
  unfold not_nested_b. rewrite forallb_forall. intros H p q x y f g Hp Hf Hfi Hq Hy Hg Hgi.
  specialize (H x (subtrees_In _ _ _ Hp)).
  assert (E : named names x = true) by (unfold named; rewrite Hf; now apply smem_true).
  rewrite E in H. rewrite forallb_forall in H. specialize (H y (subtrees_tl _ _ _ Hq Hy)).
  unfold named in H. rewrite Hg, (smem_true _ _ Hgi) in H. discriminate.
Qed.

Lemma complete_example : exists c,
  not_nested ["f"%string] ex_unit /\ inside_named ["f"%string] ex_unit [2; 0; 3; 0; 0; 2; 0; 0; 4] /\
  accepted_at ex_arith ex_unit [2; 0; 3; 0; 0; 2; 0; 0; 4] = true /\
  count_mutable_nodes (permissions_for_functions ["f"%string]) ex_map ex_unit = Ok c /\
  reported (Generic ArithmeticBinaryOp) c = 2.
Proof.
  eexists. split; [apply not_nested_check; vm_compute; reflexivity|]. split.
  { eexists _, "f"%string. split; [vm_compute; do 4 right; left; reflexivity|].
    split; [vm_compute; reflexivity|now left]. }
  split; [vm_compute; reflexivity|]. split; vm_compute; reflexivity.
Qed.
