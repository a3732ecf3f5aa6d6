(** The Vyper operators do the same with the printer and with the printer made
    total, on plain nodes. *)
From Coq Require Import String Ascii List NArith ZArith Arith Bool Lia.
From Verif Require Import Base Json JsonFacts Rng MutationType Traverse OpCommon VyMutators SpecTree SpecOps SpecTotal SpecPlain
  OpFacts SolFacts VyFacts TraverseFacts3 PaceFacts PlainFacts PlainSol.
Import ListNotations.
Open Scope list_scope.
Open Scope string_scope.

Ltac fields H :=
  apply children_mkobj in H; cbn [map snd] in H;
  repeat (destruct H as [<- | H]; [ try (apply vy_plain_scalar; reflexivity) |]); try (now destruct H).

Ltac special := cbn; intuition discriminate.

Lemma vy_plain_num z : vy_plain (parse_int_literal z).
Proof.
  assert (H : exists x, parse_int_literal z = JNum x).
  { unfold parse_int_literal. destruct (round_f64 z) as [m k].
    destruct (0 <=? z)%Z; [ destruct (z <? _)%Z | destruct (_ <=? z)%Z ]; eexists; reflexivity. }
  destruct H as [x ->]. apply vy_plain_scalar; reflexivity.
Qed.

Lemma vy_plain_int z : vy_plain (vy_int_node z).
Proof.
  apply ev_node; [ apply (vy_root_type "Int"); [ reflexivity | special ] |].
  intros v Hv. fields Hv. apply vy_plain_num.
Qed.

Lemma vy_plain_float t : vy_plain (vy_float_node t).
Proof.
  apply ev_node; [ apply (vy_root_type "Decimal"); [ reflexivity | special ] |].
  intros v Hv. fields Hv.
Qed.

Lemma vy_plain_bool b : vy_plain (vy_bool_node b).
Proof.
  apply ev_node; [ apply (vy_root_type "NameConstant"); [ reflexivity | special ] |].
  intros v Hv. fields Hv.
Qed.

Lemma vy_plain_not x : vy_plain x -> vy_plain (vy_unary_node "Not" x).
Proof.
  intro Hx. apply ev_node; [ apply (vy_root_type "UnaryOp"); [ reflexivity | special ] |].
  intros v Hv. apply children_set_key in Hv; [| reflexivity ]. destruct Hv as [-> | Hv]; [ exact Hx |].
  fields Hv.
  apply ev_node; [ apply (vy_root_type "Not"); [ reflexivity | special ] |].
  intros v Hv. fields Hv.
Qed.

(** A node of another type than function and module that is clear is plain. *)
Lemma clear_plain ty n : vy_clear n -> is_vy ty n -> ~ In ty vy_special -> vy_plain n.
Proof.
  intros [H | [Hf _]] Ht Hn; [ exact H |]. exfalso. apply Hn.
  unfold is_vy, has_field in *.
  destruct Hf as [Hf | Hf]; rewrite Ht in Hf; injection Hf as ->; cbn; tauto.
Qed.

Lemma clear_field n k v : vy_clear n -> oget n k = Some v -> k <> "doc_string" -> vy_plain v.
Proof. intros [H | [_ H]] Hv Hk; [ eapply ev_field; eassumption | exact (H k v Hv Hk) ]. Qed.

Lemma clear_elem n k l v : vy_clear n -> oget n k = Some (JArr l) -> k <> "doc_string" -> In v l -> vy_plain v.
Proof. intros H Hl Hk Hv. eapply ev_child; [ exact (clear_field n k _ H Hl Hk) | exact Hv ]. Qed.

Lemma reverse_not_special c v : assoc c reverse_operators = Some v -> ~ In v vy_special.
Proof.
  intros H. apply assoc_In in H. cbn in H.
  repeat (destruct H as [H | H]; [ injection H as _ <-; special |]). destruct H.
Qed.

Section Agree.
Variable e : env.
Hypothesis He : reads_vy e.

Lemma vagree_binop t ops n : vy_clear n -> vy_binop_mutable ops n = Ok true ->
  agrees n (vy_binop_mutate (complete e) t ops) (vy_binop_mutate e t ops).
Proof.
  intros Hn Hm fuel r. unfold vy_binop_mutable in Hm. apply ok_inj in Hm.
  destruct (is_ast_in ["BinOp"; "BoolOp"; "Compare"] n) eqn:Et; [| discriminate Hm ]. clear Hm.
  apply is_ast_in_spec in Et. destruct Et as (ty & Hty & Et).
  assert (Hs : ~ In ty vy_special) by (destruct Hty as [<- | [<- | [<- | []]]]; special).
  pose proof (clear_plain ty n Hn Et Hs) as Hp.
  unfold vy_binop_mutate. cbv zeta.
  destruct (take_key n "op") as [[op n0] |] eqn:Ek; [| reflexivity ].
  pose proof (take_key_get n "op" op n0 eq_refl Ek) as Eo. pose proof (ev_field _ _ _ _ Hp Eo) as Ho.
  destruct (get_str op "ast_type") as [ot |] eqn:Eot; [| reflexivity ].
  rewrite (complete_vy e n He Hp). both.
  destruct (assoc ot python_operators); [| reflexivity ]. both. destruct a0 as [c r'].
  destruct (assoc c reverse_operators) as [vop |] eqn:Ev; [| reflexivity ].
  assert (Hn' : vy_plain (set_key n0 "op" (set_str op "ast_type" vop))).
  { apply ev_node.
    - apply (vy_root_type ty); [| exact Hs ]. unfold is_vy, has_field in *.
      rewrite oget_set_key_other by (reflexivity || discriminate).
      rewrite (take_key_other n "op" op n0 "ast_type" eq_refl Ek) by discriminate. exact Et.
    - intros v Hv. apply children_set_key in Hv; [| reflexivity ]. destruct Hv as [-> | Hv].
      + apply ev_node.
        * apply (vy_root_type vop); [| exact (reverse_not_special _ _ Ev) ].
          unfold is_vy, has_field, set_str. apply oget_set_key_same; [ reflexivity |].
          apply get_str_Some in Eot; [| reflexivity ]. destruct op; try discriminate Eot. reflexivity.
        * intros v Hv. unfold set_str in Hv. apply children_set_key in Hv; [| reflexivity ].
          destruct Hv as [-> | Hv]; [ apply vy_plain_scalar; reflexivity | exact (ev_child _ _ _ Ho Hv) ].
      + eapply (children_take_key n "op") in Hv; [| reflexivity | exact Ek ].
        destruct Hv as [-> | Hv]; [ apply vy_plain_scalar; reflexivity | exact (ev_child _ _ _ Hp Hv) ]. }
  rewrite (complete_vy e _ He Hn'). reflexivity.
Qed.

Lemma vagree_assign n : vy_clear n -> agrees n (vy_assign_mutate (complete e)) (vy_assign_mutate e).
Proof.
  intros Hn fuel r. unfold vy_assign_mutate. destruct (oget n "value") as [v |] eqn:Ev; [| reflexivity ].
  assert (Hv : vy_plain v) by (eapply clear_field; [ exact Hn | exact Ev | discriminate ]).
  rewrite (complete_vy e v He Hv). both.
  change (vy_assign_value (complete e) r) with (vy_assign_value e r).
  destruct (vy_assign_value e r) as [[[v' bytes] r'] | | |] eqn:Ew; cbn [bind]; try reflexivity. cbv zeta.
  rewrite oget_set_key_same; [| reflexivity | destruct n; try discriminate; reflexivity ].
  assert (Hv' : vy_plain v').
  { unfold vy_assign_value in Ew.
    destruct (next_mod 4 r) as [[k r1] | | |]; cbn [bind] in Ew; try discriminate Ew.
    assert (Hf : forall x, (let (d, r2) := draw r1 in
       Ok (vy_float_node (e_show_float e (e_rand_float e d)), x (e_rand_float e d), r2)) = Ok (v', bytes, r') ->
       vy_plain v').
    { intros x H. destruct (draw r1). injection H as <- _ _. apply vy_plain_float. }
    destruct k as [| [[p | p |] | [p | p |] |]];
      try (eapply (Hf (fun f => byte_str 3 ++ e_float_bytes e f)); exact Ew);
      repeat match type of Ew with
      | bind ?a _ = _ => destruct a as [[? ?] | | |]; cbn [bind] in Ew; try discriminate Ew
      end; injection Ew as <- _ _; first [ apply vy_plain_int | apply vy_plain_bool ]. }
  rewrite (complete_vy e v' He Hv'). reflexivity.
Qed.

Lemma vagree_call n : vy_clear n -> vy_call_mutable n = Ok true ->
  agrees n (vy_call_mutate (complete e)) (vy_call_mutate e).
Proof.
  intros Hn Hm fuel r. unfold vy_call_mutable in Hm. apply ok_inj in Hm.
  destruct (is_ast "Call" n) eqn:Et; [| discriminate Hm ]. apply is_ast_spec in Et. clear Hm.
  assert (Hp : vy_plain n) by (eapply clear_plain; [ exact Hn | exact Et | special ]).
  unfold vy_call_mutate. destruct (varr_of n "args") as [l |] eqn:El; [| reflexivity ].
  apply varr_of_spec in El. both. destruct a as [i r']. both. apply vec_get_In in Heqr1.
  rewrite (complete_vy e n He Hp).
  rewrite (complete_vy e _ He (ev_elem _ _ _ _ _ Hp El Heqr1)). reflexivity.
Qed.

Lemma vagree_swapargs n : vy_clear n -> agrees n (vy_swapargs_mutate (complete e)) (vy_swapargs_mutate e).
Proof.
  intros Hn fuel r. unfold vy_swapargs_mutate. cbv zeta.
  destruct (take_key n "args") as [[w n0] |] eqn:Ek; [| reflexivity ].
  apply take_key_get in Ek; [| reflexivity ]. destruct w as [| | | | l |]; try reflexivity.
  assert (G : forall i j bytes r',
    (let? a1 := vec_get l i in let? a2 := vec_get l j in
     let? s1 := e_pp (complete e) a1 in let? s2 := e_pp (complete e) a2 in
     Ok (done (Generic SwapFunctionArguments) (set_key n0 "args" (JArr (replace_at j a1 (replace_at i a2 l))))
           (vy_id (set_key n0 "args" (JArr (replace_at j a1 (replace_at i a2 l))))) (Some (hash (complete e) bytes))
           (vy_comment ("SwapFunctionArguments Mutator: swapped '" ++ s1 ++ "', for '" ++ s2 ++ "'")) r')) =
    (let? a1 := vec_get l i in let? a2 := vec_get l j in
     let? s1 := e_pp e a1 in let? s2 := e_pp e a2 in
     Ok (done (Generic SwapFunctionArguments) (set_key n0 "args" (JArr (replace_at j a1 (replace_at i a2 l))))
           (vy_id (set_key n0 "args" (JArr (replace_at j a1 (replace_at i a2 l))))) (Some (hash e bytes))
           (vy_comment ("SwapFunctionArguments Mutator: swapped '" ++ s1 ++ "', for '" ++ s2 ++ "'")) r'))).
  { intros i j bytes r'. both. both. apply vec_get_In in Heqr0, Heqr1.
    assert (Ha : vy_plain a) by (eapply clear_elem; [ exact Hn | exact Ek | discriminate | assumption ]).
    assert (Hb : vy_plain a0) by (eapply clear_elem; [ exact Hn | exact Ek | discriminate | assumption ]).
    rewrite (complete_vy e _ He Ha), (complete_vy e _ He Hb). reflexivity. }
  destruct (length l) as [| [| [| k]]]; [ reflexivity .. | apply G |].
  both. destruct a as [i r1]. both. destruct a as [j r2]. apply G.
Qed.

Lemma vagree_if n : vy_clear n -> agrees n (vy_if_mutate (complete e)) (vy_if_mutate e).
Proof.
  intros Hn fuel r. unfold vy_if_mutate. destruct (oget n "test") as [c |] eqn:Ec; [| reflexivity ].
  assert (Hc : vy_plain c) by (eapply clear_field; [ exact Hn | exact Ec | discriminate ]).
  rewrite (complete_vy e c He Hc). both. both. destruct a0 as [k r']. cbv zeta.
  rewrite !(complete_vy e (vy_bool_node _) He (vy_plain_bool _)).
  destruct (take_key n "test") as [[c' n0] |] eqn:Ek.
  - apply take_key_get in Ek; [| reflexivity ]. rewrite Ec in Ek. injection Ek as <-.
    rewrite (complete_vy e _ He (vy_plain_not c Hc)). reflexivity.
  - reflexivity.
Qed.

Lemma vagree_int n : vy_clear n -> vy_int_mutable n = Ok true ->
  agrees n (vy_int_mutate (complete e)) (vy_int_mutate e).
Proof.
  intros Hn Hm fuel r. unfold vy_int_mutable in Hm. apply ok_inj in Hm. apply is_ast_spec in Hm.
  assert (Hp : vy_plain n) by (eapply clear_plain; [ exact Hn | exact Hm | special ]).
  assert (Hs : forall z, vy_plain (set_key n "value" (jint z))).
  { intro z. apply ev_node.
    - apply (vy_root_type "Int"); [| special ]. unfold is_vy, has_field in *.
      rewrite oget_set_key_other by (reflexivity || discriminate). exact Hm.
    - intros v Hv. apply children_set_key in Hv; [| reflexivity ]. destruct Hv as [-> | Hv].
      + apply vy_plain_scalar; unfold jint; destruct (z <? 0)%Z; reflexivity.
      + exact (ev_child _ _ _ Hp Hv). }
  unfold vy_int_mutate. rewrite (complete_vy e n He Hp). both. both. destruct a0 as [k r1].
  change (e_oc (complete e)) with (e_oc e).
  match goal with |- bind ?x _ = bind ?x _ => destruct x as [[n' r2] | | |] eqn:E; cbn [bind]; try reflexivity end.
  assert (Hn' : vy_plain n').
  { assert (G : match oget n "value" with
        | Some v =>
            match as_i64 v with
            | Some z => let? z' := i64_add (e_oc e) z (if N.eqb k 0 then 1 else -1)%Z in
                        Ok (set_key n "value" (jint z'), r1)
            | None => Ok (n, r1)
            end
        | None => Ok (n, r1)
        end = Ok (n', r2) -> vy_plain n').
    { destruct (oget n "value") as [v |]; [| intro H; injection H as <- _; exact Hp ].
      destruct (as_i64 v) as [z |]; [| intro H; injection H as <- _; exact Hp ].
      destruct (i64_add _ _ _) as [z' | | |]; cbn [bind]; intro H; try discriminate H.
      injection H as <- _. apply Hs. }
    destruct k as [| [p | [p | p |] |]]; try exact (G E).
    destruct (next_u64 r1). injection E as <- _. apply Hs. }
  rewrite (complete_vy e n' He Hn'). reflexivity.
Qed.

Lemma vagree_edit t n : vy_clear n -> vy_swapop_edit (complete e) t n = vy_swapop_edit e t n.
Proof.
  intro Hn. unfold vy_swapop_edit. destruct (smem t ["BinOp"; "Compare"]).
  - destruct (take_key n "left") as [[a n0] |] eqn:Ea; [| reflexivity ].
    destruct (take_key n0 "right") as [[b n1] |] eqn:Eb; [| reflexivity ].
    pose proof (take_key_get n "left" a n0 eq_refl Ea) as Ha. pose proof (take_key_get n0 "right" b n1 eq_refl Eb) as Hb.
    rewrite (take_key_other n "left" a n0 "right" eq_refl Ea) in Hb by discriminate.
    assert (Pa : vy_plain a) by (eapply clear_field; [ exact Hn | exact Ha | discriminate ]).
    assert (Pb : vy_plain b) by (eapply clear_field; [ exact Hn | exact Hb | discriminate ]).
    rewrite (complete_vy e _ He Pa), (complete_vy e _ He Pb). reflexivity.
  - destruct (t =?s "BoolOp"); [| reflexivity ].
    destruct (take_key n "values") as [[w n0] |] eqn:Ek; [| reflexivity ].
    apply take_key_get in Ek; [| reflexivity ]. destruct w as [| | | | l |]; try reflexivity.
    both. both. apply vec_get_In in Heqr, Heqr0.
    assert (Pa : vy_plain a) by (eapply clear_elem; [ exact Hn | exact Ek | discriminate | assumption ]).
    assert (Pb : vy_plain a0) by (eapply clear_elem; [ exact Hn | exact Ek | discriminate | assumption ]).
    rewrite (complete_vy e _ He Pa), (complete_vy e _ He Pb). reflexivity.
Qed.

Lemma vagree_swapop n : vy_clear n -> agrees n (vy_swapop_mutate (complete e)) (vy_swapop_mutate e).
Proof.
  intros Hn fuel r. unfold vy_swapop_mutate. destruct (get_str n "ast_type") as [t |]; [| reflexivity ].
  rewrite (vagree_edit t n Hn). reflexivity.
Qed.

Lemma vagree_swaplines n : vy_clear n -> agrees n (vy_swaplines_mutate (complete e)) (vy_swaplines_mutate e).
Proof.
  intros Hn fuel r. unfold vy_swaplines_mutate.
  destruct (take_key n "body") as [[w n0] |] eqn:Ek; [| reflexivity ].
  apply take_key_get in Ek; [| reflexivity ]. destruct w as [| | | | l |]; try reflexivity.
  both. destruct a as [i r1]. both. destruct a as [j r2]. both. destruct a as [[l' x] y]. cbv zeta.
  match goal with H : vec_swap _ _ _ = Ok _ |- _ => apply vec_swap_In in H; destruct H as [Hx Hy] end.
  assert (Px : vy_plain x) by (eapply clear_elem; [ exact Hn | exact Ek | discriminate | assumption ]).
  assert (Py : vy_plain y) by (eapply clear_elem; [ exact Hn | exact Ek | discriminate | assumption ]).
  rewrite (complete_vy e _ He Px), (complete_vy e _ He Py). reflexivity.
Qed.

Lemma vagree_unary n : vy_clear n -> vy_unary_mutable n = Ok true ->
  agrees n (vy_unary_mutate (complete e)) (vy_unary_mutate e).
Proof.
  intros Hn Hm fuel r. unfold vy_unary_mutable in Hm. apply ok_inj in Hm. apply is_ast_spec in Hm.
  assert (Hp : vy_plain n) by (eapply clear_plain; [ exact Hn | exact Hm | special ]).
  unfold vy_unary_mutate. rewrite (complete_vy e n He Hp). both.
  destruct (take_key n "operand") as [[x n0] |] eqn:Ek; [| reflexivity ].
  apply take_key_get in Ek; [| reflexivity ].
  rewrite (complete_vy e _ He (ev_field _ _ _ _ Hp Ek)). reflexivity.
Qed.

Lemma vagree_delete n : vy_clear n -> vy_delete_mutable (complete e) n = vy_delete_mutable e n.
Proof.
  intro Hn. unfold vy_delete_mutable. destruct (is_ast_in _ n); [| reflexivity ].
  destruct (varr_of n "body") as [[| x [| y l]] |] eqn:El; try reflexivity.
  apply varr_of_spec in El.
  assert (Px : vy_plain x) by (eapply clear_elem; [ exact Hn | exact El | discriminate | now left ]).
  rewrite (complete_vy e _ He Px). reflexivity.
Qed.

(** Every operator: same type, and on clear nodes the same acceptance and the
    same outcome. *)
Lemma vy_agree t m : vy_mutator_for e t = Some m ->
  exists m', vy_mutator_for (complete e) t = Some m' /\ mu_type m' = mu_type m /\
    (forall n, vy_clear n -> mu_mutable m' n = mu_mutable m n) /\
    (forall n, vy_clear n -> mu_mutable m n = Ok true -> agrees n (mu_mutate m') (mu_mutate m)).
Proof.
  intro H. destruct t as [[] | ?]; cbn [vy_mutator_for] in H; try discriminate H; injection H as <-;
    (eexists; split; [ reflexivity | split; [ reflexivity | split;
       [ first [ exact vagree_delete | intros; reflexivity ] |]]]); cbn [mu_mutate mu_mutable];
    intros n Hn Hm;
    first [ apply vagree_binop; assumption | apply vagree_assign; assumption | apply vagree_call; assumption
          | apply vagree_swapargs; assumption | apply vagree_if; assumption | apply vagree_int; assumption
          | apply vagree_swapop; assumption | apply vagree_swaplines; assumption
          | apply vagree_unary; assumption | intros fuel r; reflexivity ].
Qed.
End Agree.
