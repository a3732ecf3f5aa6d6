(** For every stream and every fuel, the operators neither panic nor report an
    error on the nodes they accept (under the conditions of [SpecTotal]). *)
From Coq Require Import String Ascii List NArith ZArith Bool Lia Arith.
From Verif Require Import Base Json Rng MutationType Traverse OpCommon SolMutators VyMutators
  JsonFacts SpecOps SpecTotal OpFacts TraverseFacts SolFacts VyFacts OpTotal OpTotalVy.
Import ListNotations.
Open Scope list_scope.
Open Scope string_scope.

Lemma nc_ok {A} (a : A) : no_crash (Ok a).
Proof. left. eauto. Qed.

Lemma nc_bind {A B} (r : res A) (f : A -> res B) :
  no_crash r -> (forall a, r = Ok a -> no_crash (f a)) -> no_crash (bind r f).
Proof.
  intros [(a & ->)| ->] H; simpl; [|now right]. now apply H.
Qed.

Lemma nc_works0 m n r : works0 m n r -> forall fuel, no_crash (mu_mutate m fuel n r).
Proof. intros (d & H) fuel. left. exists d. apply H. Qed.

Lemma nc_pick {A} fuel (next : rng -> res (A * rng)) bad r :
  (forall r, exists x, next r = Ok x) -> no_crash (pick_until fuel next bad r).
Proof.
  intros H. revert r; induction fuel as [|fuel IH]; intros r; simpl; [now right|].
  destruct (H r) as ((a & r') & ->). simpl. destruct (bad a); [apply IH|apply nc_ok].
Qed.

Lemma nc_pp e n : printer_total e -> no_crash (e_pp e n).
Proof. intros H. destruct (H n) as (s & ->). apply nc_ok. Qed.

Lemma random_index_total len r : 0 < len -> exists x, random_index len r = Ok x.
Proof. intros H. rewrite (rng_eta r), random_index_at by exact H. eauto. Qed.

Lemma nc_pick_index len fuel bad r : 0 < len -> no_crash (pick_until fuel (random_index len) bad r).
Proof. intros H. apply nc_pick. intros r'. now apply random_index_total. Qed.

Lemma nc_pick_choice {A} msg (x : A) l fuel bad r : no_crash (pick_until fuel (choose_or msg (x :: l)) bad r).
Proof.
  apply nc_pick. intros r'. rewrite (rng_eta r').
  destruct (choose_or_at msg x l (rstream r') (rpos r')) as (y & _ & _ & E). eauto.
Qed.

Lemma picked_lt len fuel bad r i r' :
  pick_until fuel (random_index len) bad r = Ok (i, r') -> i < len /\ bad i = false.
Proof.
  intros H. destruct (pick_until_ok _ _ _ _ _ _ H) as (Hb & r0 & Hr). split; [|exact Hb].
  eapply random_index_lt; eauto.
Qed.

Lemma nc_get {A} (l : list A) i : i < length l -> no_crash (vec_get l i).
Proof. intros H. destruct (vec_get_lt l i H) as (x & -> & _). apply nc_ok. Qed.

Lemma sol_binop_safe e t x ops n fuel r : no_crash (sol_binop_mutate e t (x :: ops) fuel n r).
Proof.
  unfold sol_binop_mutate. destruct (get_str n "operator"); [|apply nc_ok].
  apply nc_bind; [apply nc_pick_choice|]. intros (c & r') _. apply nc_ok.
Qed.

Lemma sol_unary_safe e n fuel r :
  sol_unary_mutable n = Ok true -> no_crash (sol_unary_mutate e fuel n r).
Proof.
  unfold sol_unary_mutable, sol_unary_mutate. intros Hm. apply ok_inj in Hm.
  destruct (is_type "UnaryOperation" n); [|discriminate].
  destruct (get_bool n "prefix") as [b|]; [|discriminate]. clear Hm.
  apply nc_bind; [destruct b; apply nc_pick_choice|]. intros (c & r') _. apply nc_ok.
Qed.

Lemma sol_call_safe e n fuel r :
  printer_total e -> sol_call_mutable n = Ok true -> no_crash (sol_call_mutate e fuel n r).
Proof.
  unfold sol_call_mutable, sol_call_mutate. intros Hpp Hm. apply ok_inj in Hm.
  destruct (is_type "FunctionCall" n); [|discriminate].
  destruct (arr_of n "arguments") as [l|]; [|discriminate].
  assert (Hl : 0 < length l) by (destruct l; [discriminate|simpl; lia]).
  apply nc_bind; [now apply nc_pp|]. intros s1 _.
  apply nc_bind; [now apply nc_pick_index|]. intros (i & r') Hi. apply picked_lt in Hi. destruct Hi as (Hi & _).
  apply nc_bind; [now apply nc_get|]. intros x _.
  apply nc_bind; [now apply nc_pp|]. intros s2 _. apply nc_ok.
Qed.

Lemma nc_swap {A} i j (l : list A) : i <> j -> i < length l -> j < length l -> no_crash (vec_swap i j l).
Proof. intros H1 H2 H3. destruct (vec_swap_total i j l H1 H2 H3) as (l' & x & y & ->). apply nc_ok. Qed.

Lemma sol_swaplines_safe e n fuel r :
  printer_total e -> sol_swaplines_mutable n = Ok true -> no_crash (sol_swaplines_mutate e fuel n r).
Proof.
  unfold sol_swaplines_mutable, sol_swaplines_mutate. intros Hpp Hm. apply ok_inj in Hm.
  destruct (is_type "Block" n); [|discriminate].
  destruct (arr_of n "statements") as [l|] eqn:El; [|discriminate]. apply arr_of_spec in El.
  destruct (take_present n "statements" (JArr l)) as (n0 & ->); [plain|exact El|].
  apply andb_prop in Hm. destruct Hm as (Hl & _). apply Nat.leb_le in Hl.
  apply nc_bind; [apply nc_pick_index; lia|]. intros (i & r1) Hi. apply picked_lt in Hi. destruct Hi as (Hi & _).
  apply nc_bind; [apply nc_pick_index; lia|]. intros (j & r2) Hj. apply picked_lt in Hj. destruct Hj as (Hj & Bj).
  apply nc_bind; [apply nc_swap; auto; intros ->; rewrite Nat.eqb_refl in Bj; discriminate|]. intros ((l' & x) & y) _.
  apply nc_bind; [now apply nc_pp|]. intros sx _.
  apply nc_bind; [now apply nc_pp|]. intros sy _. apply nc_ok.
Qed.

Lemma sol_unchecked_safe e n fuel r :
  printer_total e -> sol_unchecked_mutable n = Ok true -> no_crash (sol_unchecked_mutate e fuel n r).
Proof.
  unfold sol_unchecked_mutable, sol_unchecked_mutate. intros Hpp Hm. apply ok_inj in Hm.
  destruct (is_type "Block" n); [|discriminate].
  destruct (arr_of n "statements") as [l|] eqn:El; [|discriminate]. apply arr_of_spec in El.
  destruct (take_present n "statements" (JArr l)) as (n0 & ->); [plain|exact El|].
  assert (Hl : 0 < length l) by (destruct l; [discriminate|simpl; lia]).
  apply nc_bind; [now apply nc_pick_index|]. intros (i & r1) Hi. apply picked_lt in Hi. destruct Hi as (Hi & _).
  apply nc_bind; [now apply nc_get|]. intros w _.
  apply nc_bind; [now apply nc_pp|]. intros ws _.
  apply nc_bind; [now apply nc_pp|]. intros us _. apply nc_ok.
Qed.

Lemma sol_safe e t m n :
  printer_total e -> order_total e -> sol_schema n -> sol_crash_free t n ->
  sol_mutator_for e t = Some m -> mu_mutable m n = Ok true ->
  forall fuel r, no_crash (mu_mutate m fuel n r).
Proof.
  intros Hpp Hord Hsc Hcf Hm Hmut fuel r.
  destruct t as [[]|[]]; simpl in Hm; injection Hm as <-; try (apply sol_binop_safe).
  - apply nc_works0. rewrite (rng_eta r). now apply sol_assign_works.
  - apply nc_works0. rewrite (rng_eta r). now apply sol_delete_works.
  - now apply sol_call_safe.
  - apply nc_works0. rewrite (rng_eta r). now apply sol_if_works.
  - apply nc_works0. rewrite (rng_eta r). now apply sol_int_works.
  - apply nc_works0. rewrite (rng_eta r). now apply sol_swapargs_works.
  - apply nc_works0. rewrite (rng_eta r). now apply sol_swapop_works.
  - now apply sol_swaplines_safe.
  - now apply sol_unary_safe.
  - apply nc_works0. rewrite (rng_eta r). now apply sol_require_works.
  - now apply sol_unchecked_safe.
  - apply nc_works0. apply sol_delegate_works.
Qed.

(** *** Vyper *)
Lemma vy_binop_safe e t x ops n fuel r :
  printer_total e -> (forall c, In c (x :: ops) -> exists v, assoc c reverse_operators = Some v) ->
  vy_binop_mutable (x :: ops) n = Ok true -> no_crash (vy_binop_mutate e t (x :: ops) fuel n r).
Proof.
  unfold vy_binop_mutable, vy_binop_mutate. intros Hpp Hrev Hm. apply ok_inj in Hm.
  destruct (is_ast_in _ n); [|discriminate].
  destruct (op_type n) as [ot|] eqn:Eo; [|discriminate]. apply op_type_spec in Eo. destruct Eo as (op & Hop & Hot).
  destruct (assoc ot python_operators) as [orig|] eqn:Ea; [|discriminate].
  destruct (take_present n "op" op) as (n0 & ->); [plain|exact Hop|].
  assert (Hg : get_str op "ast_type" = Some ot) by (apply get_str_Some; [plain|exact Hot]). rewrite Hg.
  apply nc_bind; [now apply nc_pp|]. intros s1 _. rewrite Ea.
  apply nc_bind; [apply nc_pick_choice|]. intros (c & r') Hc.
  destruct (pick_until_ok _ _ _ _ _ _ Hc) as (_ & r0 & Hr). apply choose_or_In in Hr.
  destruct (Hrev c Hr) as (v & ->).
  apply nc_bind; [now apply nc_pp|]. intros s2 _. apply nc_ok.
Qed.

Lemma vy_call_safe e n fuel r :
  printer_total e -> vy_call_mutable n = Ok true -> no_crash (vy_call_mutate e fuel n r).
Proof.
  unfold vy_call_mutable, vy_call_mutate. intros Hpp Hm. apply ok_inj in Hm.
  destruct (is_ast "Call" n); [|discriminate].
  destruct (varr_of n "args") as [l|]; [|discriminate].
  assert (Hl : 0 < length l) by (destruct l; [discriminate|simpl; lia]).
  apply nc_bind; [now apply nc_pick_index|]. intros (i & r') Hi. apply picked_lt in Hi. destruct Hi as (Hi & _).
  apply nc_bind; [now apply nc_get|]. intros x _.
  apply nc_bind; [now apply nc_pp|]. intros s1 _.
  apply nc_bind; [now apply nc_pp|]. intros s2 _. apply nc_ok.
Qed.

Lemma vy_swapargs_safe e n fuel r :
  printer_total e -> vy_swapargs_mutable n = Ok true -> no_crash (vy_swapargs_mutate e fuel n r).
Proof.
  unfold vy_swapargs_mutable, vy_swapargs_mutate. intros Hpp Hm. apply ok_inj in Hm.
  destruct (is_ast "Call" n); [|discriminate].
  destruct (varr_of n "args") as [l|] eqn:El; [|discriminate]. apply varr_of_spec in El. apply Nat.leb_le in Hm.
  destruct (take_present n "args" (JArr l)) as (n0 & ->); [plain|exact El|].
  assert (Hfin : forall i j b r', i < length l -> j < length l -> no_crash
     (let? a1 := vec_get l i in let? a2 := vec_get l j in let? s1 := e_pp e a1 in let? s2 := e_pp e a2 in
      let n'' := set_key n0 "args" (JArr (replace_at j a1 (replace_at i a2 l))) in
      Ok (done (Generic SwapFunctionArguments) n'' (vy_id n'') (Some (hash e b))
            (vy_comment ("SwapFunctionArguments Mutator: swapped '" ++ s1 ++ "', for '" ++ s2 ++ "'")) r'))).
  { intros i j b r' Hi Hj. apply nc_bind; [now apply nc_get|]. intros a1 _.
    apply nc_bind; [now apply nc_get|]. intros a2 _.
    apply nc_bind; [now apply nc_pp|]. intros s1 _.
    apply nc_bind; [now apply nc_pp|]. intros s2 _. apply nc_ok. }
  destruct (length l) as [|[|[|m]]] eqn:Elen; try lia.
  - apply Hfin; lia.
  - apply nc_bind; [destruct (random_index_total (S (S (S m))) r) as (x & ->); [lia|apply nc_ok]|].
    intros (i & r1) Hi. apply random_index_lt in Hi.
    apply nc_bind; [apply nc_pick_index; lia|]. intros (j & r2) Hj. apply picked_lt in Hj. destruct Hj as (Hj & _).
    apply Hfin; lia.
Qed.

Lemma vy_swaplines_safe e n fuel r :
  printer_total e -> vy_swaplines_mutable n = Ok true -> no_crash (vy_swaplines_mutate e fuel n r).
Proof.
  unfold vy_swaplines_mutable, vy_swaplines_mutate. intros Hpp Hm. apply ok_inj in Hm.
  destruct (is_ast_in _ n); [|discriminate].
  destruct (varr_of n "body") as [l|] eqn:El; [|discriminate]. apply varr_of_spec in El.
  destruct (take_present n "body" (JArr l)) as (n0 & ->); [plain|exact El|].
  apply andb_prop in Hm. destruct Hm as (Hl & _). apply Nat.leb_le in Hl.
  apply nc_bind; [apply nc_pick_index; lia|]. intros (i & r1) Hi. apply picked_lt in Hi. destruct Hi as (Hi & _).
  apply nc_bind; [apply nc_pick_index; lia|]. intros (j & r2) Hj. apply picked_lt in Hj. destruct Hj as (Hj & Bj).
  apply nc_bind; [apply nc_swap; auto; intros ->; rewrite Nat.eqb_refl in Bj; discriminate|]. intros ((l' & x) & y) _.
  apply nc_bind; [now apply nc_pp|]. intros sx _.
  apply nc_bind; [now apply nc_pp|]. intros sy _. apply nc_ok.
Qed.

Lemma vy_safe e t m n :
  printer_total e -> wf n -> vy_schema n -> vy_crash_free t n ->
  vy_mutator_for e t = Some m -> mu_mutable m n = Ok true ->
  forall fuel r, no_crash (mu_mutate m fuel n r).
Proof.
  intros Hpp Hwf Hsc Hcf Hm Hmut fuel r.
  destruct t as [[]|[]]; simpl in Hm; try discriminate Hm; injection Hm as <-.
  - apply vy_binop_safe; auto. apply rev_all; reflexivity.
  - apply vy_binop_safe; auto. apply rev_all; reflexivity.
  - apply vy_binop_safe; auto. apply rev_all; reflexivity.
  - cbn [vy_binop mu_mutable] in Hmut. rewrite vy_shift_never in Hmut. discriminate.
  - apply vy_binop_safe; auto. apply rev_all; reflexivity.
  - apply nc_works0. rewrite (rng_eta r). now apply vy_assign_works.
  - apply nc_works0. rewrite (rng_eta r). now apply vy_delete_works.
  - now apply vy_call_safe.
  - apply nc_works0. rewrite (rng_eta r). now apply vy_if_works.
  - apply nc_works0. rewrite (rng_eta r). now apply vy_int_works.
  - now apply vy_swapargs_safe.
  - apply nc_works0. rewrite (rng_eta r). now apply vy_swapop_works.
  - now apply vy_swaplines_safe.
  - apply nc_works0. now apply vy_unary_works.
Qed.
