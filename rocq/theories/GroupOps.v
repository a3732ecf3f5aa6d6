(** The operators that keep the grouping. *)
From Coq Require Import String Ascii List NArith ZArith Arith Bool Lia.
From Verif Require Import Base Json JsonFacts Rng Permissions MutationType Traverse OpCommon SolMutators VyMutators Language
  SpecTree SpecMutation SpecOps SpecAccept SpecGroup OpFacts SolFacts AcceptFacts OpClaims TraverseFacts3 LocalFacts LocalOps GroupFacts.
Import ListNotations.
Open Scope list_scope.
Open Scope string_scope.

Lemma place_le : forall n k, place_needs n k <= 14.
Proof.
  intros n k. unfold place_needs. repeat match goal with |- context [if ?b then _ else _] => destruct b end; try lia.
  all: unfold left_needs, right_needs; try (destruct (_ =?s "**")); try lia.
  all: unfold level_of; destruct (assoc _ levels) as [l|] eqn:L; try lia.
  all: cbn [assoc levels] in L; repeat match type of L with context [if ?b then _ else _] => destruct b; [injection L as <-; lia|] end; discriminate.
Qed.

Lemma oget_child : forall j k v, oget j k = Some v -> In v (children j).
Proof.
  intros j k v E. destruct j as [| | | | |o]; try discriminate. cbn [oget children] in *.
  induction o as [|[k' v'] o IH]; [discriminate|]. cbn [assoc] in E. destruct (k =?s k'); [injection E as ->; now left|right; now apply IH].
Qed.

Definition tight (v : json) : Prop := wg v /\ binding v = 14.

Lemma wg_tight : forall j, Forall tight (children j) -> wg j.
Proof.
  intros j H. rewrite Forall_forall in H. apply wg_unfold. split.
  - intros k v E. destruct (H v (oget_child _ _ _ E)) as (_ & ->). apply place_le.
  - apply Forall_forall. intros c I. now apply H.
Qed.

Lemma tight_scalar : forall v, match v with JArr _ | JObj _ => False | _ => True end -> tight v.
Proof. intros v H. split; [apply wg_scalar|]; destruct v; try contradiction; reflexivity. Qed.

Lemma tight_mkobj : forall l, Forall tight (map snd l) -> Forall tight (children (mkobj l)).
Proof.
  intros l. unfold mkobj. cbn [children]. enough (G : forall o, Forall tight (map snd o) -> Forall tight (map snd l) ->
    Forall tight (map snd (fold_left (fun o kv => obj_insert (fst kv) (snd kv) o) l o))) by (apply G; constructor).
  induction l as [|[k v] l IH]; intros o Ho Hl; [exact Ho|]. cbn [fold_left fst snd]. inversion Hl; subst. apply IH; [|assumption].
  apply Forall_forall. intros c I. apply in_obj_insert in I. rewrite Forall_forall in Ho. destruct I as [->|I]; [assumption|now apply Ho].
Qed.

Lemma tight_jint : forall z, tight (jint z).
Proof. intros z. unfold jint. destruct (z <? 0)%Z; now apply tight_scalar. Qed.

Ltac scalars := repeat (first [apply Forall_nil|apply Forall_cons]); try (apply tight_scalar; exact I).

Lemma wg_sol_int z : wg (sol_int_node z).
Proof.
  unfold sol_int_node. cbv zeta. apply wg_tight, tight_mkobj. cbn [map snd]. scalars.
  split; [|reflexivity]. apply wg_tight, tight_mkobj. cbn [map snd]. scalars.
Qed.
Lemma wg_sol_bool b : wg (sol_bool_node b).
Proof.
  unfold sol_bool_node. cbv zeta. apply wg_tight, tight_mkobj. cbn [map snd]. scalars.
  split; [|reflexivity]. apply wg_tight, tight_mkobj. cbn [map snd]. scalars.
Qed.

Ltac unneeded := match goal with |- place_needs ?n ?k <= _ => replace (place_needs n k) with 0 by reflexivity; apply Nat.le_0_l end.

Lemma wg_sol_comment_node n : wg n -> wg (sol_comment_node n).
Proof.
  intros H. unfold sol_comment_node. cbv zeta. apply wg_set_key; [reflexivity|cbn; intuition discriminate| |apply tight_jint|rewrite (proj2 (tight_jint _)); apply place_le].
  apply wg_set_key; [reflexivity|cbn; intuition discriminate| |exact H|unneeded].
  apply wg_tight, tight_mkobj. cbn [map snd]. scalars.
Qed.
Lemma wg_sol_tuple l : Forall wg l -> wg (sol_tuple_node l).
Proof.
  intros H. unfold sol_tuple_node. apply wg_set_key; [reflexivity|cbn; intuition discriminate| |now apply wg_arr|unneeded].
  apply wg_tight, tight_mkobj. cbn [map snd]. scalars.
Qed.
Lemma wg_sol_negation x : wg x -> binding x = 14 -> wg (sol_unary_node "!" true x).
Proof.
  intros H B. unfold sol_unary_node. apply wg_set_key; [reflexivity|cbn; intuition discriminate| |exact H|rewrite B; apply place_le].
  apply wg_tight, tight_mkobj. cbn [map snd]. scalars.
Qed.
Lemma wg_sol_unchecked l id : Forall wg l -> wg (sol_unchecked_node l id).
Proof.
  intros H. unfold sol_unchecked_node. apply wg_set_key; [reflexivity|cbn; intuition discriminate| |now apply wg_scalar|rewrite (proj2 (tight_scalar (juint _) I)); apply place_le].
  apply wg_set_key; [reflexivity|cbn; intuition discriminate| |now apply wg_arr|unneeded].
  apply wg_tight, tight_mkobj. cbn [map snd]. scalars.
Qed.
Lemma wg_sol_require x : wg x -> wg (sol_require_node x).
Proof.
  intros H. unfold sol_require_node. apply wg_tight, tight_mkobj. cbn [map snd]. scalars.
  - split; [|reflexivity]. apply wg_tight, tight_mkobj. cbn [map snd]. scalars.
  - split; [|reflexivity]. apply wg_tight, tight_mkobj. cbn [map snd]. scalars.
    + split; [|reflexivity]. apply wg_tight, tight_mkobj. cbn [map snd]. scalars.
    + split; [|reflexivity]. apply wg_arr. now constructor.
Qed.

(** ** Lists *)
Lemma in_insert_at : forall A i (x : A) l y, In y (insert_at i x l) -> y = x \/ In y l.
Proof.
  intros A i x l y H. unfold insert_at in H. rewrite in_app_iff in H. cbn [In] in H. rewrite <- (firstn_skipn i l), in_app_iff. intuition.
Qed.
Lemma in_remove_at : forall A i (l : list A) y, In y (remove_at i l) -> In y l.
Proof.
  intros A i l y H. unfold remove_at in H. rewrite in_app_iff in H. destruct H as [H|H].
  - rewrite <- (firstn_skipn i l). apply in_or_app. now left.
  - rewrite <- (firstn_skipn (S i) l). apply in_or_app. now right.
Qed.
Lemma wg_vec_put : forall i x l, wg x -> Forall wg l -> Forall wg (vec_put i x l).
Proof.
  intros i x l Hx Hl. rewrite Forall_forall in *. intros y H. apply in_insert_at in H. destruct H as [->|H]; [exact Hx|].
  apply in_remove_at in H. now apply Hl.
Qed.
Lemma wg_vec_get : forall l i x, Forall wg l -> vec_get l i = Ok x -> wg x.
Proof.
  unfold vec_get. intros l i x Hl. destruct (nth_error l i) eqn:E; [|discriminate]. intros H. injection H as <-.
  rewrite Forall_forall in Hl. apply Hl. eapply nth_error_In; eauto.
Qed.
Lemma wg_vec_swap : forall i j l l' x y, Forall wg l -> vec_swap i j l = Ok (l', x, y) -> Forall wg l'.
Proof.
  intros i j l l' x y Hl H. unfold vec_swap in H. ok_inv H. pose proof (wg_vec_get _ _ _ Hl E) as Hx.
  assert (Hr : forall k l, Forall wg l -> Forall wg (remove_at k l)).
  { intros k l0 H. rewrite Forall_forall in *. intros z I. apply in_remove_at in I. now apply H. }
  assert (Hi : forall k z l, wg z -> Forall wg l -> Forall wg (insert_at k z l)).
  { intros k z l0 Hz H. rewrite Forall_forall in *. intros w I. apply in_insert_at in I. destruct I as [->|I]; auto. }
  pose proof (wg_vec_get _ _ _ (Hr _ _ Hl) E0) as Hy. auto.
Qed.

Lemma wg_arr_of n k l : wg n -> arr_of n k = Some l -> Forall wg l.
Proof.
  unfold arr_of. intros Hn. destruct (oget n k) as [v|] eqn:E; [|discriminate].
  pose proof (wg_oget _ _ _ Hn E) as Hv. destruct v; try discriminate. intros H. injection H as ->. now apply wg_arr.
Qed.

Lemma wg_set_at : forall n k i v, plain_key k = true -> ~ In k telling -> wg n -> wg v -> wg (set_key_at n k i v).
Proof.
  intros n k i v P T Hn Hv. rewrite set_key_at_plain by exact P. destruct n as [| | | | |o]; try exact Hn.
  destruct (assoc k o) as [w|] eqn:A; [|exact Hn]. destruct w; try exact Hn.
  assert (S : JObj (obj_set k (JArr (replace_at i v l)) o) = set_key (JObj o) k (JArr (replace_at i v l))) by (rewrite set_key_plain by exact P; now rewrite A).
  rewrite S. apply wg_set_key; [exact P|exact T|exact Hn| |apply place_le]. apply wg_arr.
  pose proof (wg_oget (JObj o) k (JArr l) Hn A) as Hl. apply wg_arr in Hl. rewrite Forall_forall in *. intros y I. clear - I Hl Hv.
  revert i I. induction l as [|z l IH]; intros [|i] I; cbn in I; try contradiction.
  - destruct I as [<-|I]; [exact Hv|apply Hl; now right].
  - destruct I as [<-|I]; [apply Hl; now left|]. apply (IH (fun y J => Hl y (or_intror J)) i I).
Qed.

Definition keeps_grouping (n : json) (d : mutated) : Prop := wg (md_node d) /\ binding n <= binding (md_node d).

Lemma binding_type : forall n n' ty, is_sol ty n -> oget n' "nodeType" = oget n "nodeType" -> ty <> "BinaryOperation" -> ty <> "UnaryOperation" -> binding n <= binding n'.
Proof.
  intros n n' ty T E N1 N2. unfold binding, string_at. rewrite E. unfold is_sol, has_field in T. rewrite T.
  apply String.eqb_neq in N1, N2. rewrite N1, N2. lia.
Qed.

Lemma pick_groups_wg l : Forall wg l -> forall g, Forall (fun kv => Forall (fun p => wg (snd p)) (snd kv)) g ->
  forall i, Forall (fun kv => Forall (fun p => wg (snd p)) (snd kv)) (arg_groups_from i l g).
Proof.
  induction 1 as [|x l Hx Hl IH]; intros g Hg i; simpl; [exact Hg|]. apply IH.
  destruct (arg_type x) as [t|]; [|exact Hg].
  induction Hg as [|[k' l'] g Hkl Hg IHg]; simpl; [repeat constructor; exact Hx|].
  destruct (t =?s k').
  - constructor; [|exact Hg]. simpl in *. apply Forall_app. split; [exact Hkl|repeat constructor; exact Hx].
  - constructor; auto.
Qed.

Lemma big_groups_wg o g : Forall (fun kv => Forall (fun p => wg (snd p)) (snd kv)) g ->
  Forall (Forall (fun p : nat * json => wg (snd p))) (big_groups o g).
Proof.
  intros H. unfold big_groups. apply Forall_forall. intros x Hx. apply in_flat_map in Hx.
  destruct Hx as (k & _ & Hx). destruct (assoc k g) as [l|] eqn:E; [|contradiction].
  destruct (Nat.leb 2 (length l)); [|contradiction]. destruct Hx as [<-|[]].
  rewrite Forall_forall in H. clear -H E. induction g as [|[k' l'] g IH]; simpl in *; [discriminate|].
  destruct (k =?s k').
  - injection E as ->. apply (H (k', l)). now left.
  - apply IH; auto.
Qed.

Lemma vec_get_Forall {A} (P : A -> Prop) l i x : Forall P l -> vec_get l i = Ok x -> P x.
Proof.
  unfold vec_get. intros Hl. destruct (nth_error l i) eqn:E; [|discriminate]. intros H. injection H as <-.
  rewrite Forall_forall in Hl. apply Hl. eapply nth_error_In; eauto.
Qed.

Lemma set_str_becomes : forall n c op, field_becomes "operator" (JStr op) n (set_str n "operator" c) -> set_str n "operator" c = set_key n "operator" (JStr op).
Proof.
  intros n c op (o & o' & _ & E & _ & _ & A & _). unfold set_str in *.
  assert (F : oget (set_key n "operator" (JStr c)) "operator" = Some (JStr op)) by (rewrite E; exact A).
  destruct (oget_set_key_cases _ "operator" _ _ _ eq_refl F) as [(_ & X)|(N & _)]; [now rewrite X|now destruct N].
Qed.

Ltac told := cbn; intuition discriminate.

Lemma wg_took : forall n k v n0, take_key n k = Some (v, n0) -> wg n -> plain_key k = true -> ~ In k telling ->
  wg v /\ wg n0 /\ oget n k = Some v /\ forall q, In q telling -> oget n0 q = oget n q.
Proof. intros n k v n0 E Hn P T. now apply wg_take. Qed.

Lemma sol_keeps_grouping e t m fuel n r d :
  sol_mutator_for e t = Some m -> In t grouping_mutations -> mu_mutable m n = Ok true -> wg n -> mu_mutate m fuel n r = Ok d -> wg (md_node d).
Proof.
  intros Hm Hin M Hn H. pose proof (proj1 (sol_accepts_iff e t m n Hm) M) as Acc.
  destruct t as [g|s]; [destruct g|destruct s]; try (exfalso; cbn in Hin; intuition discriminate); clear Hin; injection Hm as <-;
    cbn [mu_mutate sol_binop sol_unary sol_assign sol_delete sol_call sol_swapargs sol_if sol_int
         sol_swapop sol_swaplines sol_require sol_unchecked sol_delegate] in H.
  all: cbn [sol_accepts] in Acc.
  - (* BitshiftBinaryOp *)
    destruct (sol_binop_claim e BitshiftBinaryOp bitshift _ fuel n r d eq_refl eq_refl M H) as (op & op' & T & O & I & I' & N & F & C).
    unfold sol_binop_mutate in H. ok_inv H; cbn [md_node done] in *; [|exact Hn]. rewrite (set_str_becomes _ _ _ F).
    apply (wg_set_operator _ op); [exact Hn|exact O|]. intros _. cbn in I, I'. intuition (subst; auto).
  - (* Assignment *)
    unfold sol_assign_mutate in H.
    destruct (SolMutators.sol_assign_type n) as [ts|]; [|discriminate].
    destruct (oget n "rightHandSide") as [rhs|]; [|discriminate].
    destruct (e_pp e rhs); cbn [bind] in H; try discriminate.
    destruct (sol_assign_value ts r) as [[[v b] r']| | |] eqn:Ev; cbn [bind] in H; try discriminate.
    assert (Hn' : wg (match v with Some v => set_key n "rightHandSide" v | None => n end)).
    { destruct v as [v|]; [|exact Hn].
      assert (Hv : wg v /\ binding v = 14) by (unfold sol_assign_value in Ev; ok_inv Ev; split; try reflexivity; auto using wg_sol_int, wg_sol_bool).
      apply wg_set_key; [reflexivity|told|exact Hn|apply Hv|rewrite (proj2 Hv); apply place_le]. }
    destruct (oget _ "rightHandSide"); [|discriminate].
    destruct (e_pp e j); cbn [bind] in H; try discriminate. injection H as <-. exact Hn'.
  - (* DeleteStatement *)
    unfold sol_delete_mutate in H. ok_inv H. cbn [md_node done].
    destruct (wg_took _ _ _ _ E Hn eq_refl (ltac:(told))) as (Hl & Hn0 & _). apply wg_arr in Hl.
    apply wg_set_key; [reflexivity|told|exact Hn0| |apply place_le]. apply wg_arr, wg_vec_put; [|exact Hl].
    apply wg_sol_comment_node. eapply wg_vec_get; eauto.
  - (* IfStatement *)
    unfold sol_if_mutate in H.
    destruct (oget n "condition") as [c|]; [|discriminate].
    destruct (e_pp e c); cbn [bind] in H; try discriminate.
    destruct (next_mod 3 r) as [[k r']| | |]; cbn [bind] in H; try discriminate.
    match type of H with context [oget ?x "condition"] => assert (Hn' : wg x) end.
    { destruct k as [|[p|p|]]; try (apply wg_set_key; [reflexivity|told|exact Hn|apply wg_sol_bool|apply place_le]);
        (destruct (take_key n "condition") as [[c' n0]|] eqn:Et; [|exact Hn];
         destruct (wg_took _ _ _ _ Et Hn eq_refl (ltac:(told))) as (Hc & Hn0 & _ & Q);
         apply wg_set_key; [reflexivity|told|exact Hn0| |]).
      all: try (apply wg_sol_negation; [apply wg_sol_tuple; now constructor|reflexivity]).
      all: rewrite (place_same n n0 "condition" Q); unfold place_needs, string_at; unfold is_sol, has_field in Acc; rewrite (proj1 Acc); apply Nat.le_0_l. }
    destruct (oget _ "condition"); [|discriminate].
    destruct (e_pp e j); cbn [bind] in H; try discriminate. injection H as <-. exact Hn'.
  - (* Integer *)
    unfold sol_int_mutate in H.
    destruct (next_mod 3 r) as [[k r1]| | |]; cbn [bind] in H; try discriminate.
    match type of H with bind ?x _ = _ => destruct x as [[[[n' o'] s'] r2]| | |] eqn:E end;
      cbn [bind] in H; try discriminate.
    injection H as <-. cbn [md_node done].
    assert (G : forall s, wg (set_str n "value" s)) by (intros s; apply wg_set_key; [reflexivity|told|exact Hn|now apply wg_scalar|apply place_le]).
    destruct k as [|[p|[p|p|]|]]; try (ok_inv E; auto; fail).
  - (* SwapFunctionArguments *)
    unfold sol_swapargs_mutate in H. ok_inv H. cbn [md_node done].
    destruct (wg_took _ _ _ _ E Hn eq_refl (ltac:(told))) as (Hl & Hn0 & _). apply wg_arr in Hl.
    apply wg_set_key; [reflexivity|told|exact Hn0| |apply place_le]. apply wg_arr.
    assert (Hg : Forall (Forall (fun p : nat * json => wg (snd p)))
                   (big_groups (e_order e) (arg_groups l))).
    { apply big_groups_wg. apply pick_groups_wg; [exact Hl|constructor]. }
    match goal with Hv : vec_get (big_groups _ _) _ = Ok ?g |- _ =>
      pose proof (vec_get_Forall _ _ _ _ Hg Hv) as Hgg end.
    repeat match goal with Hv : vec_get _ _ = Ok (?i, ?a) |- _ =>
      pose proof (vec_get_Forall _ _ _ _ Hgg Hv); revert Hv end.
    intros. cbn [snd] in *. apply wg_vec_put; [assumption|]. apply wg_vec_put; assumption.
  - (* SwapLines *)
    unfold sol_swaplines_mutate in H. ok_inv H. cbn [md_node done].
    destruct (wg_took _ _ _ _ E Hn eq_refl (ltac:(told))) as (Hl & Hn0 & _). apply wg_arr in Hl.
    apply wg_set_key; [reflexivity|told|exact Hn0| |apply place_le]. apply wg_arr. eapply wg_vec_swap; eauto.
  - (* UnaryOp *)
    destruct (sol_unary_claim e _ fuel n r d eq_refl M H) as (p & op & op' & T & P & O & I & I' & N & F).
    unfold sol_unary_mutate in H. ok_inv H; cbn [md_node done] in *. rewrite (set_str_becomes _ _ _ F).
    apply (wg_set_operator _ op); [exact Hn|exact O|]. intros X. unfold string_at in X. unfold is_sol, has_field in T. rewrite T in X. discriminate.
  - (* Require *)
    unfold sol_require_mutate in H. ok_inv H. cbn [md_node done].
    pose proof (wg_arr_of _ _ _ Hn E) as Hl. inversion Hl; subst.
    apply wg_set_at; [reflexivity|told| |now apply wg_sol_require]. apply wg_set_at; [reflexivity|told|exact Hn|now apply wg_scalar].
  - (* UncheckedBlock *)
    unfold sol_unchecked_mutate in H. ok_inv H; cbn [md_node done].
    all: destruct (wg_took _ _ _ _ E Hn eq_refl (ltac:(told))) as (Hl & Hn0 & _); apply wg_arr in Hl.
    all: apply wg_set_key; [reflexivity|told|exact Hn0| |apply place_le]; apply wg_arr, wg_vec_put; [|exact Hl].
    all: apply wg_sol_unchecked; repeat constructor; eapply wg_vec_get; eauto.
  - (* ElimDelegateCall *)
    unfold sol_delegate_mutate in H. injection H as <-. cbn [md_node done].
    apply wg_set_key; [reflexivity|told|exact Hn|now apply wg_scalar|apply place_le].
Qed.
