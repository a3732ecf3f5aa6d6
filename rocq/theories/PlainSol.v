(** The Solidity operators do the same with the printer and with the printer
    made total, on plain nodes. *)
From Coq Require Import String Ascii List NArith ZArith Arith Bool Lia.
From Verif Require Import Base Json JsonFacts Rng MutationType Traverse OpCommon SolMutators SpecTree SpecOps SpecTotal SpecPlain
  OpFacts SolFacts TraverseFacts3 PaceFacts PlainFacts.
Import ListNotations.
Open Scope list_scope.
Open Scope string_scope.

Lemma sol_plain_int z : sol_plain (sol_int_node z).
Proof.
  apply ev_node.
  - apply (sol_root_type "Literal"); [ reflexivity | cbn; intuition discriminate ].
  - intros v Hv. apply children_mkobj in Hv. cbn [map snd] in Hv.
    repeat (destruct Hv as [<- | Hv]; [ try (apply sol_plain_scalar; reflexivity) |]); [| destruct Hv ].
    apply ev_node; [ apply sol_root_bare; reflexivity |]. intros v Hv. apply children_mkobj in Hv.
    cbn [map snd] in Hv.
    repeat (destruct Hv as [<- | Hv]; [ apply sol_plain_scalar; reflexivity |]). destruct Hv.
Qed.

Lemma sol_plain_bool b : sol_plain (sol_bool_node b).
Proof.
  apply ev_node.
  - apply (sol_root_type "Literal"); [ reflexivity | cbn; intuition discriminate ].
  - intros v Hv. apply children_mkobj in Hv. cbn [map snd] in Hv.
    repeat (destruct Hv as [<- | Hv]; [ try (apply sol_plain_scalar; reflexivity) |]); [| destruct Hv ].
    apply ev_node; [ apply sol_root_bare; reflexivity |]. intros v Hv. apply children_mkobj in Hv.
    cbn [map snd] in Hv.
    repeat (destruct Hv as [<- | Hv]; [ apply sol_plain_scalar; reflexivity |]). destruct Hv.
Qed.

Lemma sol_plain_tuple l : (forall v, In v l -> sol_plain v) -> sol_plain (sol_tuple_node l).
Proof.
  intro Hl. apply ev_node.
  - apply (sol_root_type "TupleExpression"); [ reflexivity | cbn; intuition discriminate ].
  - intros v Hv. apply children_set_key in Hv; [| reflexivity ].
    destruct Hv as [-> | Hv]; [ apply sol_plain_list; exact Hl |].
    apply children_mkobj in Hv. cbn [map snd] in Hv.
    repeat (destruct Hv as [<- | Hv]; [ apply sol_plain_scalar; reflexivity |]). destruct Hv.
Qed.

Lemma sol_plain_unary op b x : sol_plain x -> sol_plain (sol_unary_node op b x).
Proof.
  intro Hx. apply ev_node.
  - apply (sol_root_type "UnaryOperation"); [ reflexivity | cbn; intuition discriminate ].
  - intros v Hv. apply children_set_key in Hv; [| reflexivity ].
    destruct Hv as [-> | Hv]; [ exact Hx |].
    apply children_mkobj in Hv. cbn [map snd] in Hv.
    repeat (destruct Hv as [<- | Hv]; [ apply sol_plain_scalar; reflexivity |]). destruct Hv.
Qed.

Lemma sol_plain_unchecked l id : (forall v, In v l -> sol_plain v) -> sol_plain (sol_unchecked_node l id).
Proof.
  intro Hl. apply ev_node.
  - apply (sol_root_type "UncheckedBlock"); [ reflexivity | cbn; intuition discriminate ].
  - intros v Hv. apply children_set_key in Hv; [| reflexivity ].
    destruct Hv as [-> | Hv]; [ apply sol_plain_scalar; reflexivity |].
    apply children_set_key in Hv; [| reflexivity ].
    destruct Hv as [-> | Hv]; [ apply sol_plain_list; exact Hl |].
    apply children_mkobj in Hv. cbn [map snd] in Hv.
    repeat (destruct Hv as [<- | Hv]; [ apply sol_plain_scalar; reflexivity |]). destruct Hv.
Qed.

Lemma sol_plain_require x : sol_plain x -> sol_plain (sol_require_node x).
Proof.
  intro Hx.
  assert (Ht : forall a b, sol_plain (mkobj [ ("typeIdentifier", JStr a); ("typeString", JStr b) ])).
  { intros a b. apply ev_node; [ apply sol_root_bare; reflexivity |]. intros v Hv.
    apply children_mkobj in Hv. cbn [map snd] in Hv.
    repeat (destruct Hv as [<- | Hv]; [ apply sol_plain_scalar; reflexivity |]). destruct Hv. }
  apply ev_node.
  - apply (sol_root_type "UnaryOperation"); [ reflexivity | cbn; intuition discriminate ].
  - intros v Hv. apply children_mkobj in Hv. cbn [map snd] in Hv.
    repeat (destruct Hv as [<- | Hv]; [ first [ apply Ht | apply sol_plain_scalar; reflexivity | idtac ] |]);
      [| destruct Hv ].
    apply ev_node.
    + apply (sol_root_type "TupleExpression"); [ reflexivity | cbn; intuition discriminate ].
    + intros v Hv. apply children_mkobj in Hv. cbn [map snd] in Hv.
      repeat (destruct Hv as [<- | Hv]; [ first [ apply Ht | apply sol_plain_scalar; reflexivity | idtac ] |]);
        [| destruct Hv ].
      apply sol_plain_list. intros v [<- | []]. exact Hx.
Qed.

(** ** Agreement *)

Definition agrees (n : json) (f g : nat -> json -> rng -> res mutated) : Prop :=
  forall fuel r, f fuel n r = g fuel n r.

(** The same computation on both sides. *)
Ltac both :=
  match goal with
  | |- bind ?a _ = bind ?a _ => destruct a as [? | | |] eqn:?; cbn [bind]; try reflexivity
  | |- context [let (_, _) := ?p in _] => destruct p; try reflexivity
  end.

Lemma vec_get_In {A} (l : list A) i x : vec_get l i = Ok x -> In x l.
Proof.
  unfold vec_get. destruct (nth_error l i) eqn:E; [| discriminate ]. intro H. injection H as <-.
  eapply nth_error_In, E.
Qed.

Section Agree.
Variable e : env.
Hypothesis He : reads_sol e.

Lemma agree_assign n : sol_plain n -> agrees n (sol_assign_mutate (complete e)) (sol_assign_mutate e).
Proof.
  intros Hn fuel r. unfold sol_assign_mutate. destruct (sol_assign_type n) as [ts |]; [| reflexivity ].
  destruct (oget n "rightHandSide") as [rhs |] eqn:Er; [| reflexivity ].
  pose proof (ev_field _ _ _ _ Hn Er) as Hr. rewrite (complete_sol e rhs He Hr). both.
  destruct (sol_assign_value ts r) as [[[v bytes] r'] | | |] eqn:Ev; cbn [bind]; try reflexivity.
  cbv zeta. match goal with |- match ?o with _ => _ end = _ => destruct o as [rhs' |] eqn:Er'; [| reflexivity ] end.
  assert (Hr' : sol_plain rhs').
  { destruct v as [v |]; [| rewrite Er in Er'; injection Er' as <-; exact Hr ].
    rewrite oget_set_key_same in Er'; [| reflexivity | destruct n; try discriminate; reflexivity ].
    injection Er' as <-. unfold sol_assign_value in Ev.
    repeat match type of Ev with
    | bind ?a _ = _ => destruct a as [? | | |]; cbn [bind] in Ev; try discriminate Ev
    | (if ?b then _ else _) = _ => destruct b; try discriminate Ev
    | match ?o with _ => _ end = _ => destruct o; try discriminate Ev
    | (let (_, _) := ?p in _) = _ => destruct p; try discriminate Ev
    end; injection Ev as <- _ _; [ apply sol_plain_int .. | apply sol_plain_bool ]. }
  rewrite (complete_sol e rhs' He Hr'). reflexivity.
Qed.

Lemma agree_delete n : sol_plain n -> agrees n (sol_delete_mutate (complete e)) (sol_delete_mutate e).
Proof.
  intros Hn fuel r. unfold sol_delete_mutate.
  destruct (take_key n "statements") as [[w n0] |] eqn:Et; [| reflexivity ].
  apply take_key_get in Et; [| reflexivity ]. destruct w; try reflexivity. cbv zeta.
  both. destruct a as [k r']. both. both.
  assert (Hv : sol_plain a0).
  { apply vec_get_In in Heqr2. eapply ev_elem; [ exact Hn | exact Et | exact Heqr2 ]. }
  rewrite (complete_sol e _ He Hv). reflexivity.
Qed.

Lemma agree_call n : sol_plain n -> agrees n (sol_call_mutate (complete e)) (sol_call_mutate e).
Proof.
  intros Hn fuel r. unfold sol_call_mutate. destruct (arr_of n "arguments") as [l |] eqn:El; [| reflexivity ].
  apply arr_of_spec in El. rewrite (complete_sol e n He Hn). both. both. destruct a0 as [i r']. both.
  apply vec_get_In in Heqr2.
  rewrite (complete_sol e _ He (ev_elem _ _ _ _ _ Hn El Heqr2)). reflexivity.
Qed.

Lemma agree_if n : sol_plain n -> agrees n (sol_if_mutate (complete e)) (sol_if_mutate e).
Proof.
  intros Hn fuel r. unfold sol_if_mutate. destruct (oget n "condition") as [c |] eqn:Ec; [| reflexivity ].
  pose proof (ev_field _ _ _ _ Hn Ec) as Hc. rewrite (complete_sol e c He Hc). both. both.
  destruct a0 as [k r']. cbv zeta.
  match goal with |- match ?o with _ => _ end = _ => destruct o as [c' |] eqn:Ec'; [| reflexivity ] end.
  assert (Ho : is_object n = true) by (destruct n; try discriminate; reflexivity).
  assert (Hc' : sol_plain c').
  { assert (Hneg : forall x, match take_key n "condition" with
                   | Some (c, n0) => set_key n0 "condition" (sol_unary_node "!" true (sol_tuple_node [c]))
                   | None => n
                   end = x -> oget x "condition" = Some c' -> sol_plain c').
    { intros x <- E. destruct (take_key n "condition") as [[w n0] |] eqn:Et.
      - rewrite oget_set_key_same in E; [| reflexivity |].
        + injection E as <-. apply sol_plain_unary, sol_plain_tuple. intros v [<- | []].
          apply take_key_get in Et; [| reflexivity ]. rewrite Ec in Et. injection Et as <-. exact Hc.
        + rewrite take_key_plain in Et by reflexivity. destruct n; try discriminate.
          destruct (assoc "condition" o); [| discriminate Et ]. injection Et as _ <-. reflexivity.
      - rewrite Ec in E. injection E as <-. exact Hc. }
    destruct k as [| [p | p |]].
    - rewrite oget_set_key_same in Ec' by (assumption || reflexivity). injection Ec' as <-. apply sol_plain_bool.
    - eapply Hneg; [ reflexivity | exact Ec' ].
    - eapply Hneg; [ reflexivity | exact Ec' ].
    - rewrite oget_set_key_same in Ec' by (assumption || reflexivity). injection Ec' as <-. apply sol_plain_bool. }
  rewrite (complete_sol e c' He Hc'). reflexivity.
Qed.

Lemma agree_swapop n : sol_plain n -> agrees n (sol_swapop_mutate (complete e)) (sol_swapop_mutate e).
Proof.
  intros Hn fuel r. unfold sol_swapop_mutate.
  destruct (take_key n "leftExpression") as [[a n0] |] eqn:Ea; [| reflexivity ].
  destruct (take_key n0 "rightExpression") as [[b n1] |] eqn:Eb; [| reflexivity ].
  pose proof (take_key_get n "leftExpression" a n0 eq_refl Ea) as Ha. pose proof (take_key_get n0 "rightExpression" b n1 eq_refl Eb) as Hb.
  rewrite (take_key_other n "leftExpression" a n0 "rightExpression" eq_refl Ea) in Hb by discriminate.
  rewrite (complete_sol e _ He (ev_field _ _ _ _ Hn Ha)).
  rewrite (complete_sol e _ He (ev_field _ _ _ _ Hn Hb)). reflexivity.
Qed.

Lemma vec_swap_In {A} i j (l l' : list A) x y : vec_swap i j l = Ok (l', x, y) -> In x l /\ In y l.
Proof.
  unfold vec_swap. cbv zeta. intro H.
  destruct (vec_get l _) as [x0 | | |] eqn:E1 in H; cbn [bind] in H; try discriminate H.
  destruct (vec_get (remove_at _ l) _) as [y0 | | |] eqn:E2 in H; cbn [bind] in H; try discriminate H.
  injection H as _ <- <-. apply vec_get_In in E1, E2. split; [ exact E1 |].
  revert E2. generalize (if Nat.leb j i then i else j). clear. intro k.
  revert k. induction l as [| z l IH]; intros [| k] H; cbn [remove_at] in H; try (now destruct H).
  - now right.
  - destruct H as [<- | H]; [ now left | right; eapply IH; exact H ].
Qed.

Lemma groups_In order l g k i v : vec_get (big_groups order (arg_groups l)) k = Ok g -> In (i, v) g -> In v l.
Proof.
  intros Eg Hi. apply vec_get_In in Eg. unfold big_groups in Eg.
  apply in_flat_map in Eg. destruct Eg as (key & _ & Hg).
  destruct (assoc key (arg_groups l)) as [g'|] eqn:Ea; [|destruct Hg].
  destruct (Nat.leb 2 (length g')); [|destruct Hg]. destruct Hg as [->|[]].
  apply assoc_In in Ea. destruct (arg_groups_ok l) as (b & Hok). rewrite Forall_forall in Hok.
  destruct (Hok _ Ea) as (Hall & _). cbn [snd] in Hall. rewrite Forall_forall in Hall.
  destruct (Hall _ Hi) as (A1 & _). cbn [fst snd] in A1. eapply nth_error_In, A1.
Qed.

Lemma agree_swapargs n : sol_plain n -> agrees n (sol_swapargs_mutate (complete e)) (sol_swapargs_mutate e).
Proof.
  intros Hn fuel r. unfold sol_swapargs_mutate.
  destruct (take_key n "arguments") as [[w n0] |] eqn:Et; [| reflexivity ].
  apply take_key_get in Et; [| reflexivity ]. destruct w; try reflexivity.
  cbv zeta. change (e_order (complete e)) with (e_order e).
  both. destruct a as [k r']. both. both. destruct a0 as [i1 a1]. both. destruct a0 as [i2 a2].
  apply vec_get_In in Heqr2, Heqr3.
  rewrite (complete_sol e _ He (ev_elem _ _ _ _ _ Hn Et (groups_In _ _ _ _ _ _ Heqr1 Heqr2))).
  rewrite (complete_sol e _ He (ev_elem _ _ _ _ _ Hn Et (groups_In _ _ _ _ _ _ Heqr1 Heqr3))). reflexivity.
Qed.

Lemma agree_swaplines n : sol_plain n -> agrees n (sol_swaplines_mutate (complete e)) (sol_swaplines_mutate e).
Proof.
  intros Hn fuel r. unfold sol_swaplines_mutate.
  destruct (take_key n "statements") as [[w n0] |] eqn:Et; [| reflexivity ].
  apply take_key_get in Et; [| reflexivity ]. destruct w; try reflexivity.
  both. destruct a as [i r1]. both. destruct a as [j r2]. both. destruct a as [[l' x] y].
  match goal with H : vec_swap _ _ _ = Ok _ |- _ => apply vec_swap_In in H; destruct H as [Hx Hy] end.
  rewrite (complete_sol e _ He (ev_elem _ _ _ _ _ Hn Et Hx)).
  rewrite (complete_sol e _ He (ev_elem _ _ _ _ _ Hn Et Hy)). reflexivity.
Qed.

Lemma agree_require n : sol_plain n -> agrees n (sol_require_mutate (complete e)) (sol_require_mutate e).
Proof.
  intros Hn fuel r. unfold sol_require_mutate.
  destruct (arr_of n "arguments") as [[| arg l] |] eqn:El; try reflexivity. apply arr_of_spec in El.
  pose proof (ev_elem _ _ _ _ _ Hn El (or_introl eq_refl)) as Ha.
  rewrite (complete_sol e _ He Ha). cbv zeta.
  rewrite (complete_sol e _ He (sol_plain_require _ Ha)). reflexivity.
Qed.

Lemma agree_unchecked n : sol_plain n -> agrees n (sol_unchecked_mutate (complete e)) (sol_unchecked_mutate e).
Proof.
  intros Hn fuel r. unfold sol_unchecked_mutate.
  destruct (take_key n "statements") as [[w n0] |] eqn:Et; [| reflexivity ].
  apply take_key_get in Et; [| reflexivity ]. destruct w; try reflexivity.
  both. destruct a as [i r1]. both. apply vec_get_In in Heqr1.
  pose proof (ev_elem _ _ _ _ _ Hn Et Heqr1) as Ha. cbv zeta.
  rewrite (complete_sol e _ He Ha).
  rewrite (complete_sol e _ He (sol_plain_unchecked [a] _ (fun v Hv => match Hv with
     | or_introl E => eq_ind a sol_plain Ha v E | or_intror F => match F with end end))). reflexivity.
Qed.

(** Every operator: same type, same acceptance, and the same outcome on plain
    nodes. *)
Lemma sol_agree t m : sol_mutator_for e t = Some m ->
  exists m', sol_mutator_for (complete e) t = Some m' /\ mu_type m' = mu_type m /\
    mu_mutable m' = mu_mutable m /\
    (forall n, sol_plain n -> agrees n (mu_mutate m') (mu_mutate m)).
Proof.
  intro H. destruct t as [[] | []]; cbn [sol_mutator_for] in H; try discriminate H; injection H as <-;
    (eexists; split; [ reflexivity | split; [ reflexivity | split; [ reflexivity |]]]); cbn [mu_mutate];
    first [ exact agree_assign | exact agree_delete | exact agree_call | exact agree_swapargs
          | exact agree_if | exact agree_swapop | exact agree_swaplines | exact agree_require
          | exact agree_unchecked | intros n _ fuel r; reflexivity ].
Qed.
End Agree.
