(** What each Solidity operator puts in place of a node, down to the new nodes
    themselves. *)
From Coq Require Import String Ascii List NArith ZArith Bool Lia.
From Verif Require Import Base Json JsonFacts Rng MutationType Traverse OpCommon SolMutators SpecTree SpecOps SpecTotal SpecAccept SpecReach SpecLiteral SpecVyText SpecSolText SpecSolEdit
  OpFacts SolFacts TraverseFacts OpTotal AcceptFacts OpProps OpClaims RecordWays ReachFacts ReachOnly LocalFacts KeepSol.
From Verif Require VyEditFacts.
Import ListNotations.
Open Scope string_scope.
Open Scope list_scope.

(** What comes under the key of the node. *)
Inductive fills (n : json) : mutation_type -> string -> json -> Prop :=
| fi_binary g class op op' : sol_class g = Some class -> has_field n "operator" (JStr op) -> In op' class -> op' <> op ->
    fills n (Generic g) "operator" (JStr op')
| fi_unary p op op' : has_field n "prefix" (JBool p) -> has_field n "operator" (JStr op) ->
    In op' (if p then prefix_ops else postfix_ops) -> op' <> op -> fills n (Generic UnaryOp) "operator" (JStr op')
| fi_number z : fills n (Generic Assignment) "rightHandSide" (sol_int_node z)
| fi_truth : fills n (Generic Assignment) "rightHandSide" (sol_bool_node false)
| fi_delete a x b : has_field n "statements" (JArr (a ++ x :: b)) -> is_sol "ExpressionStatement" x -> a ++ b <> [] ->
    fills n (Generic DeleteStatement) "statements" (JArr (a ++ sol_comment_node x :: b))
| fi_args a x b y c : has_field n "arguments" (JArr (a ++ x :: b ++ y :: c)) ->
    fills n (Generic SwapFunctionArguments) "arguments" (JArr (a ++ y :: b ++ x :: c))
| fi_if b : fills n (Generic IfStatement) "condition" (sol_bool_node b)
| fi_not c : has_field n "condition" c -> fills n (Generic IfStatement) "condition" (sol_unary_node "!" true (sol_tuple_node [c]))
| fi_integer z : fills n (Generic Integer) "value" (JStr (show_Z z))
| fi_lines a x b y c : has_field n "statements" (JArr (a ++ x :: b ++ y :: c)) -> ~ is_sol "Return" x -> ~ is_sol "Return" y ->
    fills n (Generic SwapLines) "statements" (JArr (a ++ y :: b ++ x :: c))
| fi_require x l : has_field n "arguments" (JArr (x :: l)) -> fills n (Solidity Require) "arguments" (JArr (sol_require_node x :: l))
| fi_unchecked a x b id : has_field n "statements" (JArr (a ++ x :: b)) -> ~ is_sol "Return" x -> ~ is_sol "UncheckedBlock" x ->
    fills n (Solidity UncheckedBlock) "statements" (JArr (a ++ sol_unchecked_node [x] id :: b))
| fi_delegate : fills n (Solidity ElimDelegateCall) "memberName" (JStr "call").

Inductive made (n : json) : mutation_type -> json -> Prop :=
| made_field t k v n' : fills n t k v -> field_becomes k v n n' -> made n t n'
| made_swap a b n' : has_field n "leftExpression" a -> has_field n "rightExpression" b ->
    two_fields_become "leftExpression" b "rightExpression" a n n' -> made n (Generic SwapOperatorArguments) n'
| made_argument l x : has_field n "arguments" (JArr l) -> In x l -> made n (Generic FunctionCall) x.

Lemma put_mid : forall A i (c : A) l x, nth_error l i = Some x -> exists u v, l = u ++ x :: v /\ vec_put i c l = u ++ c :: v.
Proof.
  intros A i c l x N. destruct (nth_cut _ _ _ _ N) as (u & v & -> & <-). exists u, v. split; [reflexivity|].
  rewrite vec_put_replace by (rewrite app_length; cbn [length]; lia). apply replace_cut.
Qed.

Lemma sol_made e t m fuel n r d :
  sol_crash_free t n -> sol_mutator_for e t = Some m -> mu_mutable m n = Ok true -> mu_mutate m fuel n r = Ok d -> made n t (md_node d).
Proof.
  intros Hcf Hm Hmu Hd.
  assert (Other : ~ In t [Generic Assignment; Generic DeleteStatement; Generic IfStatement; Solidity Require; Solidity UncheckedBlock] -> made n t (md_node d)).
  { intros Hn. destruct (sol_only e t m fuel n r d Hcf Hm Hmu Hd) as (P & O & HP).
    destruct O; try (exfalso; apply Hn; cbn; tauto); try (destruct HP as (v & <- & HP)).
    - eapply made_field; [eapply fi_binary; eassumption|exact HP].
    - eapply made_field; [eapply fi_unary; eassumption|exact HP].
    - subst. eapply made_argument; eassumption.
    - destruct HP as (l' & X & HP). destruct (VyEditFacts.exchanged_cut _ _ _ _ _ X) as (a & x & b & y & c & -> & ->).
      eapply made_field; [eapply fi_args; eassumption|exact HP].
    - rewrite <- show_Z_of_N in HP; eapply made_field; [apply fi_integer|exact HP].
    - eapply made_field; [apply fi_integer|exact HP].
    - rewrite <- show_Z_of_N in HP; eapply made_field; [apply fi_integer|exact HP].
    - eapply made_swap; eassumption.
    - destruct HP as (l' & X & HP). match goal with Hx : nth_error l i = Some x, Hy : nth_error l j = Some y, Rx : ~ is_sol "Return" x, Ry : ~ is_sol "Return" y |- _ =>
        destruct (VyEditFacts.exchanged_cut_at _ _ _ _ _ (fun x => ~ is_sol "Return" x) X x y Hx Hy Rx Ry) as (a & x0 & b & y0 & c & -> & -> & R1 & R2) end.
      eapply made_field; [eapply fi_lines; eassumption|exact HP].
    - eapply made_field; [apply fi_delegate|exact HP]. }
  destruct t as [g|so]; [destruct g|destruct so]; try (apply Other; cbn; intuition discriminate); clear Other; injection Hm as <-; cbn [mu_mutable mu_mutate sol_assign sol_delete sol_if sol_require sol_unchecked] in Hmu, Hd.
  - (* Assignment *)
    unfold sol_assign_mutate in Hd. destruct (sol_assign_type n) as [ts|] eqn:Ets; [|discriminate Hd].
    destruct (oget n "rightHandSide") as [rhs|] eqn:Er; [|discriminate Hd].
    destruct (e_pp e rhs) as [s1| | |]; cbn [bind] in Hd; try discriminate Hd.
    destruct (sol_assign_value ts r) as [[[v b] r1]| | |] eqn:Ev; cbn [bind] in Hd; try discriminate Hd.
    assert (G : exists v', v = Some v' /\ ((exists z, v' = sol_int_node z) \/ v' = sol_bool_node false)).
    { destruct Hcf as [Hty|[(k & Hk & Hty)|(k & Hk & Hty)]]; pose proof (proj2 (sol_assign_type_spec _ _) Hty) as Hty';
        rewrite Ets in Hty'; apply some_inj in Hty'; subst ts.
      - rewrite (rng_eta r), sol_bool_value in Ev. injection Ev as <- _ _. eauto.
      - rewrite sol_uint_value in Ev by exact Hk. destruct (gen_range _ _ r) as [[z r2]| | |] eqn:Eg; cbn [bind] in Ev; try discriminate Ev. injection Ev as <- _ _. eauto.
      - rewrite sol_int_value in Ev by exact Hk. destruct (gen_range _ _ r) as [[z r2]| | |] eqn:Eg; cbn [bind] in Ev; try discriminate Ev. injection Ev as <- _ _. eauto. }
    destruct G as (v' & -> & G).
    destruct (oget (set_key n "rightHandSide" v') "rightHandSide") as [j|]; [|discriminate Hd].
    destruct (e_pp e j) as [s2| | |]; cbn [bind] in Hd; try discriminate Hd. injection Hd as <-. cbn [md_node done].
    assert (Fb : field_becomes "rightHandSide" v' n (set_key n "rightHandSide" v')) by (eapply field_set; [plain|exact Er]).
    destruct G as [(z & ->)| ->]; eapply made_field; [apply fi_number|exact Fb|apply fi_truth|exact Fb].
  - (* DeleteStatement *)
    unfold sol_delete_mutable, sol_delete_mutate in *. apply ok_inj in Hmu.
    destruct (is_type "Block" n) eqn:Et; [|discriminate Hmu]. destruct (arr_of n "statements") as [l0|] eqn:El; [|discriminate Hmu]. apply arr_of_spec in El.
    destruct (take_key n "statements") as [[v n0]|] eqn:Ek; [|discriminate]. destruct v as [| | | |l|]; try discriminate.
    pose proof (take_arr n "statements" (JArr l) n0 eq_refl Ek) as Hl.
    assert (l0 = l) by (unfold has_field in El, Hl; congruence). subst l0. ok_inv Hd. apply vec_get_ok in E0. apply vec_get_ok in E1.
    assert (Hi : In a (indexes (fun v => is_object v && is_type "ExpressionStatement" v)%bool l)) by (eapply nth_error_In; eauto).
    apply indexes_from_spec in Hi. destruct Hi as (_ & y & Hy & Hf). rewrite Nat.sub_0_r in Hy. rewrite E1 in Hy. injection Hy as <-. apply andb_prop in Hf. destruct Hf as (_ & Hf).
    destruct (put_mid _ a (sol_comment_node a0) l a0 E1) as (u & w & -> & Q). cbn [md_node done].
    eapply made_field; [eapply (fi_delete n u a0 w); [exact Hl|now apply is_type_spec|]|rewrite Q; eapply field_take_set; eauto; plain].
    intros Z. apply app_eq_nil in Z. destruct Z as (-> & ->). discriminate Hmu.
  - (* IfStatement *)
    unfold sol_if_mutate in Hd. destruct (oget n "condition") as [c|] eqn:Ec; [|discriminate]. ok_inv Hd.
    assert (Not : forall X, X = (match take_key n "condition" with Some (c, n0) => set_key n0 "condition" (sol_unary_node "!" true (sol_tuple_node [c])) | None => n end) -> made n (Generic IfStatement) X).
    { intros X ->. destruct (take_key n "condition") as [[c0 n0']|] eqn:Ek.
      - assert (c0 = c) by (pose proof (take_arr n "condition" c0 n0' eq_refl Ek) as X; unfold has_field in X; congruence). subst c0.
        eapply made_field; [apply (fi_not n c); exact Ec|eapply field_take_set; [plain|exact Ek]].
      - exfalso. rewrite take_key_plain in Ek by plain. apply oget_object in Ec. destruct Ec as (o & -> & Ho). rewrite Ho in Ek. discriminate. }
    assert (Is : forall b X, X = set_key n "condition" (sol_bool_node b) -> made n (Generic IfStatement) X).
    { intros b X ->. eapply made_field; [apply fi_if|eapply field_set; [plain|exact Ec]]. }
    cbn [md_node done]. match goal with |- made _ _ (match ?k with 0%N => _ | _ => _ end) => destruct k as [|[p|p|]] end; first [eapply Is; reflexivity|apply Not; reflexivity].
  - (* Require *)
    unfold sol_require_mutate in Hd. destruct (arr_of n "arguments") as [[|arg rest]|] eqn:El; try discriminate. apply arr_of_spec in El. ok_inv Hd.
    eapply made_field; [eapply fi_require; exact El|]. cbn [md_node done].
    unfold has_field in El. apply oget_object in El. destruct El as (o & -> & Ho).
    rewrite (set_key_at_plain (JObj o)) by plain. rewrite Ho. rewrite set_key_at_plain by plain. rewrite (assoc_obj_set_same _ _ _ _ Ho). cbn [replace_at]. rewrite obj_set_twice.
    exists o. eexists. split; [reflexivity|]. split; [reflexivity|]. split; [apply keys_obj_set|].
    split; [eapply assoc_In_keys; eauto|]. split; [eapply assoc_obj_set_same; eauto|]. intros k' Hk. now apply assoc_obj_set_other.
  - (* UncheckedBlock *)
    unfold sol_unchecked_mutate in Hd. destruct (take_key n "statements") as [[v n0]|] eqn:Ek; [|discriminate]. destruct v as [| | | |l|]; try discriminate.
    pose proof (take_arr n "statements" (JArr l) n0 eq_refl Ek) as Hl. ok_inv Hd.
    apply pick_until_ok in E. destruct E as (Hi & _). apply vec_get_ok in E0. unfold type_at in Hi. rewrite E0 in Hi. apply orb_false_elim in Hi. destruct Hi as (Ha & Hb).
    match goal with |- made _ _ (md_node (done _ (set_key _ _ (JArr (vec_put ?i ?u l))) _ _ _ _)) => destruct (put_mid _ i u l _ E0) as (p & q & -> & Q) end.
    cbn [md_node done]. eapply made_field; [eapply fi_unchecked; [exact Hl| |]|rewrite Q; eapply field_take_set; eauto; plain].
    + intros X. apply is_type_spec in X. congruence.
    + intros X. apply is_type_spec in X. congruence.
Qed.
