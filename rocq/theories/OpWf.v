(** Mutation keeps JSON values canonical (C29). *)
From Coq Require Import String List NArith ZArith Bool Lia Sorted.
From Verif Require Import Base Json JsonFacts Rng Permissions MutationType Traverse OpCommon SolMutators
  VyMutators Comments Language SpecTree SpecMutation SpecJson TraverseFacts TraverseFacts2 TraverseFacts3
  SpecOps OpFacts SpecComments CommentFacts.
Import ListNotations.
Open Scope list_scope.
Open Scope string_scope.

(** ** [wf] and [canonical] *)
Lemma wf_unfold j : wf j <->
  Forall wf (children j) /\
  match j with
  | JObj o => StronglySorted (fun a b => str_ltb a b = true) (map fst o)
  | JNum x => wf_num x
  | _ => True
  end.
Proof.
  destruct j; try (simpl; intuition constructor).
  - rewrite wf_arr. unfold wf_list. simpl. tauto.
  - rewrite wf_object. cbn [children]. induction o as [|[k v] o IH]; simpl.
    + split; [|auto]. intros _. split; constructor.
    + rewrite IH. split.
      * intros (Ha & Hv & Ho & Hs). split; [constructor; auto|]. constructor; [exact Hs|].
        unfold keys_above in Ha. rewrite Forall_map. eapply Forall_impl; [|exact Ha]. intros [k' v']; auto.
      * intros (Hf & Hs). inversion Hf; subst. inversion Hs; subst. repeat split; auto.
        unfold keys_above. rewrite Forall_map in H4. eapply Forall_impl; [|exact H4]. intros [k' v']; auto.
Qed.

Lemma canonical_wf j : canonical j <-> wf j.
Proof.
  induction j as [j IH] using json_children_ind. rewrite wf_unfold. rewrite Forall_forall in IH. split.
  - intros (H1 & H2). split.
    + apply Forall_forall. intros x Hx. apply (IH x Hx).
      apply In_nth_error in Hx. destruct Hx as (i & Hi). split.
      * intros p o Hp. apply (H1 (i :: p)). simpl. now rewrite Hi.
      * intros p y Hp. apply (H2 (i :: p)). simpl. now rewrite Hi.
    + destruct j; auto.
      * specialize (H2 [] x eq_refl). destruct x; exact H2.
      * apply (H1 []). reflexivity.
  - intros (Hf & Hj). rewrite Forall_forall in Hf. split.
    + intros [|i p] o Hp; simpl in Hp.
      * injection Hp as ->. exact Hj.
      * destruct (nth_error (children j) i) as [x|] eqn:E; [|discriminate].
        apply nth_error_In in E. apply (proj1 (proj2 (IH x E) (Hf x E)) p o Hp).
    + intros [|i p] y Hp; simpl in Hp.
      * injection Hp as ->. destruct y; exact Hj.
      * destruct (nth_error (children j) i) as [x|] eqn:E; [|discriminate].
        apply nth_error_In in E. apply (proj2 (proj2 (IH x E) (Hf x E)) p y Hp).
Qed.

(** ** Trees *)
Lemma wf_subtree p j n : wf j -> subtree p j = Some n -> wf n.
Proof.
  revert j; induction p as [|i p IH]; intros j Hj; simpl; [congruence|].
  destruct (nth_error (children j) i) as [x|] eqn:E; [|discriminate]. apply IH.
  apply wf_children in Hj. rewrite Forall_forall in Hj. apply Hj. eapply nth_error_In; eauto.
Qed.

Lemma map_fst_set_value i x o : map fst (set_value i x o) = map fst o.
Proof. revert i; induction o as [|[k v] o IH]; intros [|i]; simpl; congruence. Qed.

Lemma wf_set_child i x j : wf x -> wf j -> wf (set_child i x j).
Proof.
  intros Hx Hj. rewrite wf_unfold in Hj; rewrite wf_unfold. rewrite children_set_child. destruct Hj as (Hf & Hj).
  split; [now apply Forall_replace_at|]. destruct j; simpl; auto. rewrite map_fst_set_value. exact Hj.
Qed.

Lemma wf_set_subtree p x j : wf x -> wf j -> wf (set_subtree p x j).
Proof.
  intros Hx. revert j; induction p as [|i p IH]; intros j Hj; simpl; [exact Hx|].
  destruct (nth_error (children j) i) as [y|] eqn:E; [|exact Hj].
  apply wf_set_child; [|exact Hj]. apply IH. apply wf_children in Hj. rewrite Forall_forall in Hj.
  apply Hj. eapply nth_error_In; eauto.
Qed.

(** ** Arrays *)
Lemma wf_insert_at i x l : wf x -> wf_list l -> wf_list (insert_at i x l).
Proof.
  intros Hx Hl. unfold insert_at, wf_list in *. rewrite Forall_forall in *. intros y Hy.
  apply in_app_or in Hy. destruct Hy as [Hy|[<-|Hy]]; auto; apply Hl.
  - rewrite <- (firstn_skipn i l). apply in_or_app. now left.
  - rewrite <- (firstn_skipn i l). apply in_or_app. now right.
Qed.

Lemma wf_remove_at i l : wf_list l -> wf_list (remove_at i l).
Proof.
  intros Hl. unfold remove_at, wf_list in *. rewrite Forall_forall in *. intros y Hy.
  apply in_app_or in Hy. destruct Hy as [Hy|Hy]; apply Hl.
  - rewrite <- (firstn_skipn i l). apply in_or_app. now left.
  - rewrite <- (firstn_skipn (S i) l). apply in_or_app. now right.
Qed.

Lemma wf_vec_put i x l : wf x -> wf_list l -> wf_list (vec_put i x l).
Proof. intros Hx Hl. unfold vec_put. apply wf_insert_at; [exact Hx|]. now apply wf_remove_at. Qed.

Lemma wf_vec_get l i x : wf_list l -> vec_get l i = Ok x -> wf x.
Proof.
  unfold vec_get. intros Hl. destruct (nth_error l i) eqn:E; [|discriminate]. intros H. injection H as <-.
  unfold wf_list in Hl. rewrite Forall_forall in Hl. apply Hl. eapply nth_error_In; eauto.
Qed.

Lemma wf_vec_swap i j l l' x y : wf_list l -> vec_swap i j l = Ok (l', x, y) -> wf_list l'.
Proof.
  intros Hl H. unfold vec_swap in H. ok_inv H.
  pose proof (wf_vec_get _ _ _ Hl E) as Hx.
  pose proof (wf_vec_get _ _ _ (wf_remove_at _ _ Hl) E0) as Hy.
  apply wf_insert_at; [exact Hy|]. apply wf_insert_at; [exact Hx|]. apply wf_remove_at. now apply wf_remove_at.
Qed.

Lemma wf_take_array n k l n0 : wf n -> take_key n k = Some (JArr l, n0) -> wf_list l /\ wf n0.
Proof.
  intros Hn H. destruct (wf_take_key _ _ _ _ Hn H) as (H1 & H2). split; [now apply wf_arr|exact H2].
Qed.

Lemma wf_arr_of n k l : wf n -> arr_of n k = Some l -> wf_list l.
Proof.
  unfold arr_of. intros Hn. destruct (oget n k) as [v|] eqn:E; [|discriminate].
  pose proof (wf_oget _ _ _ Hn E) as Hv. destruct v; try discriminate. intros H. injection H as ->.
  now apply wf_arr.
Qed.

Lemma i64_as_u64_bound z : (i64_as_u64 z < 18446744073709551616)%N.
Proof.
  unfold i64_as_u64. pose proof (Z.mod_pos_bound z 18446744073709551616 ltac:(lia)). lia.
Qed.

(** ** Builders *)
Ltac wfb := repeat match goal with
  | |- wf (set_key _ _ _) => apply wf_set_key
  | |- wf (mkobj _) => apply wf_mkobj
  | |- wf (JArr _) => apply wf_arr
  | |- wf (JStr _) => exact I
  | |- wf (JBool _) => exact I
  | |- wf JNull => exact I
  | |- wf_list (_ :: _) => apply Forall_cons
  | |- wf_list [] => apply Forall_nil
  | |- Forall _ (_ :: _) => apply Forall_cons
  | |- Forall _ [] => apply Forall_nil
  | |- wf (snd _) => cbn [snd]
  | |- _ => assumption
  end.
Ltac wf_num_tac := unfold juint; simpl; lia.

Lemma wf_sol_int z : wf (sol_int_node z).
Proof. unfold sol_int_node. cbv zeta. wfb; wf_num_tac. Qed.
Lemma wf_sol_bool b : wf (sol_bool_node b).
Proof. unfold sol_bool_node. wfb; wf_num_tac. Qed.
Lemma wf_sol_comment s : wf (sol_comment s).
Proof. unfold sol_comment. wfb; wf_num_tac. Qed.
Lemma wf_sol_comment_node n : wf n -> wf (sol_comment_node n).
Proof.
  intros H. unfold sol_comment_node. destruct (get_int n "id") as [z|] eqn:E.
  - wfb; [|wf_num_tac]. apply wf_jint. eapply wf_get_int; eauto.
  - wfb; [|wf_num_tac]. apply wf_jint. reflexivity.
Qed.
Lemma wf_sol_tuple l : wf_list l -> wf (sol_tuple_node l).
Proof. intros H. unfold sol_tuple_node. wfb; wf_num_tac. Qed.
Lemma wf_sol_unary op p x : wf x -> wf (sol_unary_node op p x).
Proof. intros H. unfold sol_unary_node. wfb; wf_num_tac. Qed.
Lemma wf_sol_unchecked l id : wf_list l -> (id < 18446744073709551616)%N -> wf (sol_unchecked_node l id).
Proof. intros H Hid. unfold sol_unchecked_node. wfb; wf_num_tac. Qed.
Lemma wf_sol_require x : wf x -> wf (sol_require_node x).
Proof. intros H. unfold sol_require_node. wfb; try wf_num_tac. Qed.
Lemma wf_sol_block l : wf_list l -> wf (sol_block_node l).
Proof. intros H. unfold sol_block_node. wfb; wf_num_tac. Qed.

Lemma wf_parse_int z : wf (parse_int_literal z).
Proof.
  unfold parse_int_literal. destruct (Z.leb_spec 0 z).
  - destruct (Z.ltb_spec z 18446744073709551616); [simpl; lia|]. destruct (round_f64 z). exact I.
  - destruct (Z.leb_spec (-9223372036854775808) z); [simpl; lia|]. destruct (round_f64 z). exact I.
Qed.
Lemma wf_vy_int z : wf (vy_int_node z).
Proof. unfold vy_int_node. wfb; try wf_num_tac. apply wf_parse_int. Qed.
Lemma wf_vy_float s : wf (vy_float_node s).
Proof. unfold vy_float_node. wfb; wf_num_tac. Qed.
Lemma wf_vy_bool b : wf (vy_bool_node b).
Proof. unfold vy_bool_node. wfb; wf_num_tac. Qed.
Lemma wf_vy_comment s : wf (vy_comment s).
Proof. unfold vy_comment. wfb; wf_num_tac. Qed.
Lemma wf_vy_comment_node n : wf n -> wf (vy_comment_node n).
Proof.
  intros H. unfold vy_comment_node. destruct (get_int n "node_id") as [z|] eqn:E.
  - wfb; [|wf_num_tac]. apply wf_jint. eapply wf_get_int; eauto.
  - wfb; [|wf_num_tac]. apply wf_jint. reflexivity.
Qed.
Lemma wf_vy_pass : wf vy_pass_node.
Proof. unfold vy_pass_node. wfb; wf_num_tac. Qed.
Lemma wf_vy_str s : wf (vy_str_node s).
Proof. unfold vy_str_node. wfb; wf_num_tac. Qed.
Lemma wf_vy_return x : wf x -> wf (vy_return_node x).
Proof. intros H. unfold vy_return_node. wfb; wf_num_tac. Qed.
Lemma wf_vy_unary op x : wf x -> wf (vy_unary_node op x).
Proof. intros H. unfold vy_unary_node. wfb; wf_num_tac. Qed.
Lemma wf_vy_list k s : wf (vy_list_node k s).
Proof.
  unfold vy_list_node. apply wf_set_key.
  - apply wf_arr. unfold wf_list. apply Forall_forall. intros x Hx. apply repeat_spec in Hx. subst x.
    wfb; wf_num_tac.
  - wfb; wf_num_tac.
Qed.

(** ** Operators *)
Definition keeps_wf (d : mutated) : Prop :=
  wf (md_node d) /\ forall c, md_comment d = Some c -> wf c.

Lemma keeps_done_sol t n id h s r : wf n -> keeps_wf (done t n id h (sol_comment s) r).
Proof. intros H. split; [exact H|]. intros c E. injection E as <-. apply wf_sol_comment. Qed.
Lemma keeps_done_vy t n id h s r : wf n -> keeps_wf (done t n id h (vy_comment s) r).
Proof. intros H. split; [exact H|]. intros c E. injection E as <-. apply wf_vy_comment. Qed.

Lemma pick_groups_wf l : wf_list l -> forall g, Forall (fun kv => Forall (fun p => wf (snd p)) (snd kv)) g ->
  forall i, Forall (fun kv => Forall (fun p => wf (snd p)) (snd kv)) (arg_groups_from i l g).
Proof.
  induction 1 as [|x l Hx Hl IH]; intros g Hg i; simpl; [exact Hg|]. apply IH.
  destruct (arg_type x) as [t|]; [|exact Hg].
  induction Hg as [|[k' l'] g Hkl Hg IHg]; simpl; [repeat constructor; exact Hx|].
  destruct (t =?s k').
  - constructor; [|exact Hg]. simpl in *. apply Forall_app. split; [exact Hkl|repeat constructor; exact Hx].
  - constructor; auto.
Qed.

Lemma big_groups_wf o g : Forall (fun kv => Forall (fun p => wf (snd p)) (snd kv)) g ->
  Forall (Forall (fun p : nat * json => wf (snd p))) (big_groups o g).
Proof.
  intros H. unfold big_groups. apply Forall_forall. intros x Hx. apply in_flat_map in Hx.
  destruct Hx as (k & _ & Hx). destruct (assoc k g) as [l|] eqn:E; [|contradiction].
  destruct (Nat.leb 2 (length l)); [|contradiction]. destruct Hx as [<-|[]].
  rewrite Forall_forall in H. clear -H E. induction g as [|[k' l'] g IH]; simpl in *; [discriminate|].
  destruct (k =?s k').
  - injection E as ->. apply (H (k', l)). now left.
  - apply IH; auto.
Qed.

Lemma vec_get_Forall {A} (P : A -> Prop) l i x : Forall P l -> vec_get l i = Ok x -> P x.
Proof.
  unfold vec_get. intros Hl. destruct (nth_error l i) eqn:E; [|discriminate]. intros H. injection H as <-.
  rewrite Forall_forall in Hl. apply Hl. eapply nth_error_In; eauto.
Qed.

Lemma sol_assign_value_wf ts r v b r' : sol_assign_value ts r = Ok (Some v, b, r') -> wf v.
Proof.
  unfold sol_assign_value. intros H. ok_inv H; auto using wf_sol_int, wf_sol_bool.
Qed.

Lemma sol_keeps e t m fuel n r d :
  sol_mutator_for e t = Some m -> wf n -> mu_mutate m fuel n r = Ok d -> keeps_wf d.
Proof.
  intros Hm Hn H.
  destruct t as [g|s]; [destruct g|destruct s]; injection Hm as <-;
    cbn [mu_mutate sol_binop sol_unary sol_assign sol_delete sol_call sol_swapargs sol_if sol_int
         sol_swapop sol_swaplines sol_require sol_unchecked sol_delegate] in H.
  all: try (unfold sol_binop_mutate in H; ok_inv H;
       [apply keeps_done_sol; apply wf_set_key; [exact I|exact Hn]|split; [exact Hn|discriminate]]; fail).
  - (* Assignment *)
    unfold sol_assign_mutate in H.
    destruct (sol_assign_type n) as [ts|]; [|discriminate].
    destruct (oget n "rightHandSide") as [rhs|]; [|discriminate].
    destruct (e_pp e rhs); cbn [bind] in H; try discriminate.
    destruct (sol_assign_value ts r) as [[[v b] r']| | |] eqn:Ev; cbn [bind] in H; try discriminate.
    assert (Hn' : wf (match v with Some v => set_key n "rightHandSide" v | None => n end)).
    { destruct v as [v|]; [|exact Hn]. apply wf_set_key; [|exact Hn]. eapply sol_assign_value_wf; eauto. }
    destruct (oget _ "rightHandSide"); [|discriminate].
    destruct (e_pp e j); cbn [bind] in H; try discriminate. injection H as <-. now apply keeps_done_sol.
  - (* DeleteStatement *)
    unfold sol_delete_mutate in H. ok_inv H. apply keeps_done_sol.
    destruct (wf_take_array _ _ _ _ Hn E) as (Hl & Hn0).
    apply wf_set_key; [|exact Hn0]. apply wf_arr. apply wf_vec_put; [|exact Hl].
    apply wf_sol_comment_node. eapply wf_vec_get; eauto.
  - (* FunctionCall *)
    unfold sol_call_mutate in H. ok_inv H. apply keeps_done_sol.
    eapply wf_vec_get; [|eassumption]. eapply wf_arr_of; eauto.
  - (* IfStatement *)
    unfold sol_if_mutate in H.
    destruct (oget n "condition") as [c|]; [|discriminate].
    destruct (e_pp e c); cbn [bind] in H; try discriminate.
    destruct (next_mod 3 r) as [[k r']| | |]; cbn [bind] in H; try discriminate.
    match type of H with context [oget ?x "condition"] => assert (Hn' : wf x) end.
    { destruct k as [|[p|p|]]; try (apply wf_set_key; [apply wf_sol_bool|exact Hn]);
        (destruct (take_key n "condition") as [[c' n0]|] eqn:Et; [|exact Hn];
         destruct (wf_take_key _ _ _ _ Hn Et) as (Hc & Hn0);
         apply wf_set_key; [|exact Hn0]; apply wf_sol_unary; apply wf_sol_tuple; repeat constructor; exact Hc). }
    destruct (oget _ "condition"); [|discriminate].
    destruct (e_pp e j); cbn [bind] in H; try discriminate. injection H as <-. now apply keeps_done_sol.
  - (* Integer *)
    unfold sol_int_mutate in H.
    destruct (next_mod 3 r) as [[k r1]| | |]; cbn [bind] in H; try discriminate.
    match type of H with bind ?x _ = _ => destruct x as [[[[n' o'] s'] r2]| | |] eqn:E end;
      cbn [bind] in H; try discriminate.
    injection H as <-. apply keeps_done_sol.
    assert (G : forall s, wf (set_str n "value" s)) by (intros s; apply wf_set_key; [exact I|exact Hn]).
    destruct k as [|[p|[p|p|]|]]; try (ok_inv E; auto; fail).
  - (* SwapFunctionArguments *)
    unfold sol_swapargs_mutate in H. ok_inv H. apply keeps_done_sol.
    destruct (wf_take_array _ _ _ _ Hn E) as (Hl & Hn0).
    apply wf_set_key; [|exact Hn0]. apply wf_arr.
    assert (Hg : Forall (Forall (fun p : nat * json => wf (snd p)))
                   (big_groups (e_order e) (arg_groups l))).
    { apply big_groups_wf. apply pick_groups_wf; [exact Hl|constructor]. }
    match goal with Hv : vec_get (big_groups _ _) _ = Ok ?g |- _ =>
      pose proof (vec_get_Forall _ _ _ _ Hg Hv) as Hgg end.
    repeat match goal with Hv : vec_get _ _ = Ok (?i, ?a) |- _ =>
      pose proof (vec_get_Forall _ _ _ _ Hgg Hv); revert Hv end.
    intros. cbn [snd] in *. apply wf_vec_put; [assumption|]. apply wf_vec_put; assumption.
  - (* SwapOperatorArguments *)
    unfold sol_swapop_mutate in H. ok_inv H. apply keeps_done_sol.
    destruct (wf_take_key _ _ _ _ Hn E) as (Ha & Hn0).
    destruct (wf_take_key _ _ _ _ Hn0 E0) as (Hb & Hn1).
    apply wf_set_key; [exact Ha|]. apply wf_set_key; assumption.
  - (* SwapLines *)
    unfold sol_swaplines_mutate in H. ok_inv H. apply keeps_done_sol.
    destruct (wf_take_array _ _ _ _ Hn E) as (Hl & Hn0).
    apply wf_set_key; [|exact Hn0]. apply wf_arr. eapply wf_vec_swap; eauto.
  - (* UnaryOp *)
    unfold sol_unary_mutate in H. ok_inv H; apply keeps_done_sol; (apply wf_set_key; [exact I|exact Hn]).
  - (* Require *)
    unfold sol_require_mutate in H. ok_inv H. apply keeps_done_sol.
    pose proof (wf_arr_of _ _ _ Hn E) as Hl. inversion Hl; subst.
    apply wf_set_key_at; [now apply wf_sol_require|]. apply wf_set_key_at; [exact I|exact Hn].
  - (* UncheckedBlock *)
    unfold sol_unchecked_mutate in H. ok_inv H; apply keeps_done_sol.
    all: destruct (wf_take_array _ _ _ _ Hn E) as (Hl & Hn0).
    all: apply wf_set_key; [|exact Hn0]; apply wf_arr; apply wf_vec_put; [|exact Hl].
    all: apply wf_sol_unchecked; [repeat constructor; eapply wf_vec_get; eauto|].
    all: try apply i64_as_u64_bound; try reflexivity.
    destruct (get_int _ "id"); [apply i64_as_u64_bound|reflexivity].
  - (* ElimDelegateCall *)
    unfold sol_delegate_mutate in H. injection H as <-. apply keeps_done_sol.
    apply wf_set_key; [exact I|exact Hn].
Qed.

Lemma wf_varr_of n k l : wf n -> varr_of n k = Some l -> wf_list l.
Proof. apply wf_arr_of. Qed.

Lemma vy_assign_value_wf e r v b r' : vy_assign_value e r = Ok (v, b, r') -> wf v.
Proof.
  unfold vy_assign_value. destruct (next_mod 4 r) as [[k r1]| | |]; cbn [bind]; try discriminate.
  destruct k as [|[p|[p|p|]|]]; intros H; ok_inv H;
    auto using wf_vy_int, wf_vy_bool, wf_vy_float.
Qed.

Lemma vy_filler_wf n r l b r' : vy_delete_filler n r = Ok (l, b, r') -> wf_list l.
Proof.
  unfold vy_delete_filler, wf_list. intros H. ok_inv H;
    match goal with
    | |- Forall _ [] => apply Forall_nil
    | |- Forall _ _ => apply Forall_cons; [|apply Forall_nil]
    end;
    repeat match goal with
    | |- wf vy_pass_node => apply wf_vy_pass
    | |- wf (vy_return_node _) => apply wf_vy_return
    | |- wf (vy_int_node _) => apply wf_vy_int
    | |- wf (vy_bool_node _) => apply wf_vy_bool
    | |- wf (vy_str_node _) => apply wf_vy_str
    | |- wf (vy_list_node _ _) => apply wf_vy_list
    end.
Qed.

Lemma vy_swapop_edit_wf e t n n' a b : wf n -> vy_swapop_edit e t n = Ok (n', a, b) -> wf n'.
Proof.
  intros Hn H. unfold vy_swapop_edit in H.
  destruct (smem t ["BinOp"; "Compare"]).
  - destruct (take_key n "left") as [[x n0]|] eqn:E; [|injection H as <- _ _; exact Hn].
    destruct (wf_take_key _ _ _ _ Hn E) as (Hx & Hn0).
    destruct (take_key n0 "right") as [[y n1]|] eqn:E1; [|injection H as <- _ _; exact Hn0].
    destruct (wf_take_key _ _ _ _ Hn0 E1) as (Hy & Hn1). ok_inv H.
    apply wf_set_key; [exact Hx|]. apply wf_set_key; assumption.
  - destruct (t =?s "BoolOp"); [|injection H as <- _ _; exact Hn].
    destruct (take_key n "values") as [[x n0]|] eqn:E; [|injection H as <- _ _; exact Hn].
    destruct (wf_take_key _ _ _ _ Hn E) as (Hx & Hn0).
    destruct x; ok_inv H; exact Hn0.
Qed.

Lemma i64_add_in oc a b z : i64_add oc a b = Ok z -> in_i64 z = true.
Proof.
  unfold i64_add. destruct (in_i64 (a + b)) eqn:E; [intros H; injection H as <-; exact E|].
  destruct oc; [discriminate|]. intros H. injection H as <-. unfold in_i64.
  set (s := (a + b)%Z). pose proof (Z.mod_pos_bound (s + 9223372036854775808) 18446744073709551616 ltac:(lia)).
  apply andb_true_intro. split; [apply Z.leb_le|apply Z.ltb_lt]; lia.
Qed.

Lemma u64_as_i64_in d : (d < 18446744073709551616)%N -> in_i64 (u64_as_i64 d) = true.
Proof.
  intros H. unfold u64_as_i64. destruct (N.ltb_spec d 9223372036854775808); unfold in_i64;
    apply andb_true_intro; (split; [apply Z.leb_le|apply Z.ltb_lt]; lia).
Qed.

Lemma next_u64_bound r d r' : next_u64 r = (d, r') -> (d < 18446744073709551616)%N.
Proof.
  unfold next_u64. intros H. injection H as <- _. apply N.mod_lt. discriminate.
Qed.

Lemma vy_keeps e t m fuel n r d :
  vy_mutator_for e t = Some m -> wf n -> mu_mutate m fuel n r = Ok d -> keeps_wf d.
Proof.
  intros Hm Hn H.
  destruct t as [g|s]; [destruct g|discriminate]; injection Hm as <-;
    cbn [mu_mutate vy_binop vy_unary vy_assign vy_delete vy_call vy_swapargs vy_if vy_int
         vy_swapop vy_swaplines] in H.
  1-5: unfold vy_binop_mutate in H; ok_inv H; apply keeps_done_vy;
       destruct (wf_take_key _ _ _ _ Hn E) as (Hop & Hn0);
       apply wf_set_key; [|exact Hn0]; apply wf_set_key; [exact I|exact Hop].
  - (* Assignment *)
    unfold vy_assign_mutate in H. ok_inv H. apply keeps_done_vy.
    apply wf_set_key; [|exact Hn]. eapply vy_assign_value_wf; eauto.
  - (* DeleteStatement *)
    unfold vy_delete_mutate in H.
    destruct (take_key n "body") as [[b n0]|] eqn:E; [|discriminate]. destruct b; try discriminate.
    destruct (wf_take_array _ _ _ _ Hn E) as (Hl & Hn0).
    destruct (random_index (length l) r) as [[i r1]| | |]; cbn [bind] in H; try discriminate.
    destruct (vec_get l i) as [v| | |] eqn:Ev; cbn [bind] in H; try discriminate.
    assert (H1 : wf_list (vec_put i (vy_comment_node v) l)).
    { apply wf_vec_put; [|exact Hl]. apply wf_vy_comment_node. eapply wf_vec_get; eauto. }
    cbv zeta in H. destruct (Nat.eqb _ 1).
    + destruct (vy_delete_filler n0 r1) as [[[more bytes] r2]| | |] eqn:Ef; cbn [bind] in H; try discriminate.
      injection H as <-. apply keeps_done_vy. apply wf_set_key; [|exact Hn0]. apply wf_arr.
      apply Forall_app. split; [exact H1|]. eapply vy_filler_wf; eauto.
    + cbn [bind] in H. injection H as <-. apply keeps_done_vy. apply wf_set_key; [|exact Hn0]. now apply wf_arr.
  - (* FunctionCall *)
    unfold vy_call_mutate in H. ok_inv H. apply keeps_done_vy.
    eapply wf_vec_get; [|eassumption]. eapply wf_varr_of; eauto.
  - (* IfStatement *)
    unfold vy_if_mutate in H.
    destruct (oget n "test") as [c|]; [|discriminate].
    destruct (e_pp e c); cbn [bind] in H; try discriminate.
    destruct (next_mod 3 r) as [[k r']| | |]; cbn [bind] in H; try discriminate. cbv zeta in H.
    destruct k as [|[p|p|]].
    + ok_inv H. apply keeps_done_vy. apply wf_set_key; [apply wf_vy_bool|exact Hn].
    + destruct (take_key n "test") as [[c' n0]|] eqn:Et; [|injection H as <-; split; [exact Hn|discriminate]].
      destruct (wf_take_key _ _ _ _ Hn Et) as (Hc & Hn0). ok_inv H. apply keeps_done_vy.
      apply wf_set_key; [|exact Hn0]. now apply wf_vy_unary.
    + destruct (take_key n "test") as [[c' n0]|] eqn:Et; [|injection H as <-; split; [exact Hn|discriminate]].
      destruct (wf_take_key _ _ _ _ Hn Et) as (Hc & Hn0). ok_inv H. apply keeps_done_vy.
      apply wf_set_key; [|exact Hn0]. now apply wf_vy_unary.
    + ok_inv H. apply keeps_done_vy. apply wf_set_key; [apply wf_vy_bool|exact Hn].
  - (* Integer *)
    unfold vy_int_mutate in H. destruct (e_pp e n); cbn [bind] in H; try discriminate.
    destruct (next_mod 3 r) as [[k r1]| | |]; cbn [bind] in H; try discriminate.
    match type of H with bind ?x _ = _ => destruct x as [[n' r2]| | |] eqn:E end;
      cbn [bind] in H; try discriminate.
    ok_inv H. apply keeps_done_vy.
    assert (G : forall z, in_i64 z = true -> wf (set_key n "value" (jint z))).
    { intros z Hz. apply wf_set_key; [now apply wf_jint|exact Hn]. }
    destruct k as [|[p|[p|p|]|]].
    5:{ destruct (next_u64 r1) as [u r3] eqn:Eu. injection E as <- _. apply G.
        apply u64_as_i64_in. eapply next_u64_bound; eauto. }
    all: destruct (oget n "value") as [v|]; [|injection E as <- _; exact Hn];
         destruct (as_i64 v) as [z|]; [|injection E as <- _; exact Hn];
         ok_inv E; apply G; eapply i64_add_in; eauto.
  - (* SwapFunctionArguments *)
    unfold vy_swapargs_mutate in H. cbv zeta in H.
    destruct (take_key n "args") as [[b n0]|] eqn:E; [|discriminate]. destruct b; try discriminate.
    destruct (wf_take_array _ _ _ _ Hn E) as (Hl & Hn0).
    assert (G : forall i j a1 a2, vec_get l i = Ok a1 -> vec_get l j = Ok a2 ->
       wf (set_key n0 "args" (JArr (replace_at j a1 (replace_at i a2 l))))).
    { intros i j a1 a2 H1 H2. apply wf_set_key; [|exact Hn0]. apply wf_arr.
      apply Forall_replace_at; [eapply wf_vec_get; eauto|]. apply Forall_replace_at; [eapply wf_vec_get; eauto|exact Hl]. }
    destruct (length l) as [|[|[|k]]].
    + injection H as <-. split; [exact Hn0|discriminate].
    + injection H as <-. split; [exact Hn0|discriminate].
    + ok_inv H. apply keeps_done_vy. exact (G 0 1 _ _ E0 E1).
    + ok_inv H. apply keeps_done_vy. apply G; assumption.
  - (* SwapOperatorArguments *)
    unfold vy_swapop_mutate in H. ok_inv H. apply keeps_done_vy. eapply vy_swapop_edit_wf; eauto.
  - (* SwapLines *)
    unfold vy_swaplines_mutate in H. ok_inv H. apply keeps_done_vy.
    destruct (wf_take_array _ _ _ _ Hn E) as (Hl & Hn0).
    apply wf_set_key; [|exact Hn0]. apply wf_arr. eapply wf_vec_swap; eauto.
  - (* UnaryOp *)
    unfold vy_unary_mutate in H. ok_inv H. apply keeps_done_vy. exact (proj1 (wf_take_key _ _ _ _ Hn E0)).
Qed.

(** ** Comment insertion *)
Lemma wf_insert_in_array idm id c l : wf c -> wf_list l -> wf_list (fst (insert_in_array idm id c l)).
Proof.
  intros Hc. induction 1 as [|x l Hx Hl IH]; simpl; [constructor|].
  destruct (has_id idm id x); [repeat constructor; auto|].
  destruct (insert_in_array idm id c l). simpl in *. constructor; auto.
Qed.

Lemma wf_insert_under idm k id c n : wf c -> wf n -> wf (fst (insert_under idm k id c n)).
Proof.
  intros Hc Hn. unfold insert_under. destruct (get_array n k) as [l|] eqn:E; [|exact Hn].
  assert (Hl : wf_list l).
  { unfold get_array in E. destruct (kget n k) as [v|] eqn:Ek; [|discriminate].
    pose proof (wf_kget _ _ _ Hn Ek) as Hv. destruct v; try discriminate. injection E as ->. now apply wf_arr. }
  pose proof (wf_insert_in_array idm id c l Hc Hl) as H.
  destruct (insert_in_array idm id c l) as [l' b]. simpl in *. apply wf_upd_array; auto.
Qed.

Lemma wf_sol_insert_key n k id c : wf c -> wf n -> wf (fst (sol_insert_key n k id c)).
Proof.
  intros Hc Hn. unfold sol_insert_key. destruct (take_key n k) as [[b n0]|] eqn:E; [|exact Hn].
  destruct (wf_take_key _ _ _ _ Hn E) as (Hb & Hn0).
  destruct (get_str b "nodeType") as [t|]; [|now apply wf_set_key].
  destruct (t =?s "Block").
  - destruct (match sol_id b with Some i => N.eqb id i | None => false end).
    + apply wf_set_key; [|exact Hn0]. apply wf_upd_array; [|exact Hb]. intros l Hl. constructor; auto.
    + pose proof (wf_insert_under sol_id "statements" id c b Hc Hb) as H.
      destruct (insert_under sol_id "statements" id c b). simpl in *. now apply wf_set_key.
  - destruct (has_id sol_id id b); simpl; apply wf_set_key; auto.
    apply wf_sol_block. repeat constructor; auto.
Qed.

Lemma wf_sol_insert n id c : wf c -> wf n -> wf (sol_insert n id c).
Proof.
  intros Hc Hn. unfold sol_insert. destruct (sol_holder n) as [k|k| |]; auto using wf_insert_under, wf_sol_insert_key.
  pose proof (wf_sol_insert_key n "trueBody" id c Hc Hn) as H.
  destruct (sol_insert_key n "trueBody" id c) as [n1 b]. destruct b; [exact H|]. now apply wf_sol_insert_key.
Qed.

Lemma wf_vy_insert n id c : wf c -> wf n -> wf (vy_insert n id c).
Proof.
  intros Hc Hn. unfold vy_insert. destruct (is_ast_in _ n); [now apply wf_insert_under|].
  destruct (is_ast "If" n); [|exact Hn].
  pose proof (wf_insert_under vy_id "body" id c n Hc Hn) as H.
  destruct (insert_under vy_id "body" id c n) as [n1 b]. destruct b; [exact H|]. now apply wf_insert_under.
Qed.

Lemma wf_insert_comment idm member insert ast c path :
  (forall n id, wf n -> wf (insert n id c)) -> wf ast ->
  wf (insert_comment_by_path idm member insert ast c path).
Proof.
  intros Hi Ha. destruct (insert_by_path_spec idm member insert ast c path)
    as [(outer & up & inner & p & n & _ & Hp & _ & _ & -> & _)|(-> & _)]; [|exact Ha].
  apply wf_set_subtree; [|exact Ha]. apply Hi. eapply wf_subtree; eauto.
Qed.

(** ** Whole mutants *)
Lemma make_mutation_wf ps idm m fuel i ast r ast' s :
  (forall n r d, wf n -> mu_mutate m fuel n r = Ok d -> keeps_wf d) ->
  wf ast -> make_mutation ps idm m fuel i ast r = Ok (ast', s) ->
  wf ast' /\ forall c, mk_comment s = Some c -> wf c.
Proof.
  intros Hk Ha H. apply make_mutation_local in H.
  destruct H as [(-> & B & _)|(p & n & d & A & _ & B & C & -> & D & _)].
  - split; [exact Ha|]. intros c E. congruence.
  - destruct (Hk n r d (wf_subtree _ _ _ Ha A) C) as (H1 & H2).
    split; [now apply wf_set_subtree|]. intros c E. apply H2. congruence.
Qed.

Lemma mutate_ast_wf L ps ms pm fuel ast t i r ast' mr r' :
  (forall m n r d, mm_get t ms = Some m -> wf n -> mu_mutate m fuel n r = Ok d -> keeps_wf d) ->
  (forall n id c, wf c -> wf n -> wf (l_insert L n id c)) ->
  wf ast -> mutate_ast L ps ms pm fuel ast t i r = Ok (ast', mr, r') -> wf ast'.
Proof.
  intros Hk Hi Ha H. unfold mutate_ast in H. destruct (mm_get t ms) as [m|] eqn:Em; [|discriminate].
  destruct (make_mutation ps (l_id L) m fuel i ast r) as [[a s]| | |] eqn:E; cbn [bind] in H; try discriminate.
  injection H as <- _ _.
  destruct (make_mutation_wf _ _ _ _ _ _ _ _ _ (fun n r d => Hk m n r d eq_refl) Ha E) as (H1 & H2).
  destruct (mk_comment s) as [c|]; [|exact H1].
  destruct (pm_get (mk_node_id s) pm); [|exact H1].
  apply wf_insert_comment; auto.
Qed.
