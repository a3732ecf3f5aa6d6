(** Different records mean different mutants, for most operators. *)
From Coq Require Import String Ascii List NArith ZArith Bool Lia Arith.
From Verif Require Import Base Json Rng MutationType Traverse OpCommon SolMutators VyMutators
  JsonFacts SpecOps OpFacts SolFacts VyFacts PathFacts EmitFacts SpecRecord RecordFacts.
Import ListNotations.
Open Scope list_scope.
Open Scope string_scope.

Lemma set_key_inj n k v v' : plain_key k = true -> is_object n = true -> set_key n k v = set_key n k v' -> v = v'.
Proof.
  intros P O H. apply (f_equal (fun x => oget x k)) in H. rewrite !oget_set_key_same in H by assumption. congruence.
Qed.

Lemma oget_is_object n k v : oget n k = Some v -> is_object n = true.
Proof. destruct n; try discriminate; reflexivity. Qed.

Lemma set_taken_inj n k w n0 v v' : plain_key k = true -> take_key n k = Some (w, n0) ->
  set_key n0 k v = set_key n0 k v' -> v = v'.
Proof.
  intros P T H. destruct (take_set n k v w n0 P T) as (A & E1). destruct (take_set n k v' w n0 P T) as (_ & E2).
  rewrite E1, E2 in H. eapply set_key_inj; [exact P| |exact H]. eapply oget_is_object; eauto.
Qed.

Lemma show_Z_inj a b : show_Z a = show_Z b -> a = b.
Proof.
  assert (M : forall n s, show_N n <> String "-" s).
  { intros n s H. destruct (show_N_digit n) as (c & s' & E & _ & Hc). congruence. }
  destruct a as [|p|p], b as [|q|q]; cbn [show_Z]; intros H; try reflexivity;
    try (apply show_N_inj in H; congruence); try (exfalso; eapply M; (exact H || (symmetry; exact H))).
  injection H as H. apply show_N_inj in H. congruence.
Qed.

(** Two lists with one place changed each. *)
Lemma slots_differ {A} i j (x y : A) l : i < length l -> j < length l ->
  vec_put i x l = vec_put j y l -> i <> j -> nth_error l i = Some x /\ nth_error l j = Some y.
Proof.
  intros Hi Hj H N. destruct (slot_vec_put i x l Hi) as (_ & _ & P1 & P2). destruct (slot_vec_put j y l Hj) as (_ & _ & P3 & P4).
  split; [rewrite <- (P4 i) by auto; now rewrite <- H|rewrite <- (P2 j) by auto; now rewrite H].
Qed.

Lemma sol_binop_ways e t ops fuel n r d fuel' r' d' :
  sol_binop_mutable ops n = Ok true ->
  sol_binop_mutate e t ops fuel n r = Ok d -> sol_binop_mutate e t ops fuel' n r' = Ok d' ->
  md_node d = md_node d' -> md_result d = md_result d'.
Proof.
  unfold sol_binop_mutable, sol_binop_mutate. intros Hm H H' X.
  destruct (get_str n "operator") as [op|] eqn:Eo.
  2:{ destruct (is_type "BinaryOperation" n); discriminate. }
  apply get_str_Some in Eo; [|plain]. apply oget_is_object in Eo.
  ok_inv H. ok_inv H'. cbn [md_node done] in X. unfold set_str in X. apply set_key_inj in X; [|plain|exact Eo].
  injection X as <-. reflexivity.
Qed.

Lemma sol_unary_ways e fuel n r d fuel' r' d' :
  sol_unary_mutate e fuel n r = Ok d -> sol_unary_mutate e fuel' n r' = Ok d' ->
  md_node d = md_node d' -> md_result d = md_result d'.
Proof.
  unfold sol_unary_mutate. intros H H' X. destruct (get_bool n "prefix") as [p|] eqn:Ep; [|discriminate].
  apply get_bool_Some in Ep; [|plain]. apply oget_is_object in Ep.
  ok_inv H. ok_inv H'. cbn [md_node done] in X. unfold set_str in X. apply set_key_inj in X; [|plain|exact Ep].
  injection X as <-. reflexivity.
Qed.

Lemma sol_assign_value_ways ts r v b r1 r' v' b' r1' :
  sol_assign_value ts r = Ok (Some v, b, r1) -> sol_assign_value ts r' = Ok (Some v', b', r1') -> v = v' -> b = b'.
Proof.
  unfold sol_assign_value. intros H H'.
  assert (I : forall z z', sol_int_node z = sol_int_node z' -> z = z').
  { intros z z' Z. apply (f_equal (fun x => oget x "value")) in Z. cbn in Z. injection Z as Z. now apply show_Z_inj. }
  destruct (slice_to 3 ts) as [pre| | |]; cbn [bind] in *; try discriminate.
  destruct (pre =?s "int").
  { destruct (slice_from 3 ts) as [sz| | |]; cbn [bind] in *; try discriminate.
    destruct (parse_unsigned 32 sz) as [k|]; [|discriminate].
    destruct (_ || _)%bool; [discriminate|].
    destruct (gen_range _ _ r) as [[z r2]| | |]; cbn [bind] in H; try discriminate.
    destruct (gen_range _ _ r') as [[z' r2']| | |]; cbn [bind] in H'; try discriminate.
    apply ok_inj in H, H'. injection H as <- <- <-. injection H' as <- <- <-. intros X. apply I in X. now subst. }
  destruct (pre =?s "uin").
  { destruct (slice_from 4 ts) as [sz| | |]; cbn [bind] in *; try discriminate.
    destruct (parse_unsigned 32 sz) as [k|]; [|discriminate].
    destruct (gen_range _ _ r) as [[z r2]| | |]; cbn [bind] in H; try discriminate.
    destruct (gen_range _ _ r') as [[z' r2']| | |]; cbn [bind] in H'; try discriminate.
    apply ok_inj in H, H'. injection H as <- <- <-. injection H' as <- <- <-. intros X. apply I in X. now subst. }
  destruct (pre =?s "boo").
  { destruct (ts =?s "bool"); [|discriminate].
    destruct (gen_range _ _ r) as [[z r2]| | |] eqn:E; cbn [bind] in H; try discriminate.
    destruct (gen_range _ _ r') as [[z' r2']| | |] eqn:E'; cbn [bind] in H'; try discriminate.
    apply ok_inj in H, H'. injection H as <- <- <-. injection H' as <- <- <-. apply gen_range_bounds in E, E'.
    assert (z = 0)%Z as -> by lia. assert (z' = 0)%Z as -> by lia. reflexivity. }
  discriminate.
Qed.

Lemma sol_assign_ways e fuel n r d fuel' r' d' :
  sol_assign_mutable n = Ok true ->
  sol_assign_mutate e fuel n r = Ok d -> sol_assign_mutate e fuel' n r' = Ok d' ->
  md_node d = md_node d' -> md_result d = md_result d'.
Proof.
  unfold sol_assign_mutable, sol_assign_mutate. intros Hm H H' X.
  destruct (is_type "Assignment" n); [|discriminate]. destruct (sol_assign_type n) as [ts|]; [|discriminate].
  destruct (N.ltb (slen ts) 3); [discriminate|].
  destruct (slice_to 3 ts) as [pre| | |] eqn:Epre; cbn [bind] in Hm; try discriminate. apply ok_inj in Hm.
  destruct (oget n "rightHandSide") as [rhs|] eqn:Er; [|discriminate].
  destruct (e_pp e rhs) as [os| | |]; cbn [bind] in *; try discriminate.
  destruct (sol_assign_value ts r) as [[[v b] r1]| | |] eqn:Ea; cbn [bind] in *; try discriminate.
  destruct (sol_assign_value ts r') as [[[v' b'] r1']| | |] eqn:Ea'; cbn [bind] in *; try discriminate.
  assert (S0 : forall rr vv bb rr', sol_assign_value ts rr = Ok (vv, bb, rr') -> exists x, vv = Some x).
  { clear - Epre Hm. intros rr vv bb rr' Z. destruct vv as [x|]; [eauto|]. exfalso.
    unfold sol_assign_value in Z. rewrite Epre in Z. cbn [bind] in Z.
    apply smem_In' in Hm. simpl in Hm.
    destruct (pre =?s "int") eqn:A1; [ok_inv Z|]. destruct (pre =?s "uin") eqn:A2; [ok_inv Z|].
    destruct (pre =?s "boo") eqn:A3; [ok_inv Z|].
    apply String.eqb_neq in A1, A2, A3. intuition congruence. }
  destruct (S0 _ _ _ _ Ea) as (x & ->). destruct (S0 _ _ _ _ Ea') as (x' & ->).
  assert (Q : x = x' -> b = b') by (intros; eapply sol_assign_value_ways; eauto).
  rewrite (oget_set_key_same n "rightHandSide" x) in H by (plain || (eapply oget_is_object; eauto)).
  rewrite (oget_set_key_same n "rightHandSide" x') in H' by (plain || (eapply oget_is_object; eauto)).
  destruct (e_pp e x) as [ns| | |] eqn:En; cbn [bind] in H; try discriminate.
  destruct (e_pp e x') as [ns'| | |] eqn:En'; cbn [bind] in H'; try discriminate.
  apply ok_inj in H, H'. subst d d'. cbn [md_node done] in X.
  apply set_key_inj in X; [|plain|eapply oget_is_object; eauto]. subst x'. now rewrite Q.
Qed.

Lemma indexes_from_inj {A} (f : A -> bool) l : forall i k k' x,
  nth_error (indexes_from i f l) k = Some x -> nth_error (indexes_from i f l) k' = Some x -> k = k'.
Proof.
  assert (G : forall l i k x, nth_error (@indexes_from A i f l) k = Some x -> i <= x).
  { intros l0 i k x H. apply nth_error_In, indexes_from_spec in H. lia. }
  induction l as [|y l IH]; intros i k k' x H H'; simpl in *; [destruct k; discriminate|].
  destruct (f y); [|eapply IH; eauto].
  destruct k as [|k], k' as [|k']; simpl in *; [reflexivity|..].
  - injection H as <-. apply G in H'. lia.
  - injection H' as <-. apply G in H. lia.
  - f_equal. eapply IH; eauto.
Qed.

Lemma sol_delete_ways e fuel n r d fuel' r' d' :
  sol_delete_mutate e fuel n r = Ok d -> sol_delete_mutate e fuel' n r' = Ok d' ->
  md_node d = md_node d' -> md_result d = md_result d'.
Proof.
  unfold sol_delete_mutate. intros H H' X.
  destruct (take_key n "statements") as [[v n0]|] eqn:Et; [|discriminate]. destruct v as [| | | |l|]; try discriminate.
  destruct (random_index _ r) as [[k r1]| | |] eqn:Ek; cbn [bind] in H; try discriminate.
  destruct (random_index _ r') as [[k' r1']| | |] eqn:Ek'; cbn [bind] in H'; try discriminate.
  destruct (vec_get _ k) as [i| | |] eqn:Ei; cbn [bind] in H; try discriminate.
  destruct (vec_get _ k') as [i'| | |] eqn:Ei'; cbn [bind] in H'; try discriminate.
  destruct (vec_get l i) as [w| | |] eqn:Ew; cbn [bind] in H; try discriminate.
  destruct (vec_get l i') as [w'| | |] eqn:Ew'; cbn [bind] in H'; try discriminate.
  destruct (e_pp e w) as [s| | |]; cbn [bind] in H; try discriminate.
  destruct (e_pp e w') as [s'| | |]; cbn [bind] in H'; try discriminate.
  apply ok_inj in H, H'. subst d d'. cbn [md_node done] in X.
  apply (set_taken_inj n "statements" (JArr l)) in X; [|plain|exact Et]. injection X as X.
  apply vec_get_ok in Ei, Ei', Ew, Ew'.
  destruct (Nat.eq_dec i i') as [<-|N].
  - rewrite Ew in Ew'. injection Ew' as <-. rewrite (indexes_from_inj _ _ _ _ _ _ Ei Ei'). reflexivity.
  - exfalso. apply slots_differ in X; [|apply nth_error_Some; congruence|apply nth_error_Some; congruence|exact N].
    destruct X as (X & _). apply nth_error_In, indexes_from_spec in Ei. destruct Ei as (_ & y & Ey & F).
    rewrite Nat.sub_0_r in Ey. rewrite X in Ey. injection Ey as <-. apply andb_prop in F. destruct F as (_ & F).
    apply is_type_spec in F. destruct (sol_comment_node_spec w) as (C & _). unfold is_sol, has_field in *. congruence.
Qed.

Lemma sol_call_ways e fuel n r d fuel' r' d' :
  (forall l, has_field n "arguments" (JArr l) -> NoDup l) ->
  sol_call_mutate e fuel n r = Ok d -> sol_call_mutate e fuel' n r' = Ok d' ->
  md_node d = md_node d' -> md_result d = md_result d'.
Proof.
  unfold sol_call_mutate. intros ND H H' X. destruct (arr_of n "arguments") as [l|] eqn:El; [|discriminate].
  apply arr_of_spec in El. apply ND in El.
  destruct (e_pp e n) as [os| | |]; cbn [bind] in *; try discriminate.
  destruct (pick_until fuel _ _ r) as [[i r1]| | |] eqn:Ei; cbn [bind] in H; try discriminate.
  destruct (pick_until fuel' _ _ r') as [[i' r1']| | |] eqn:Ei'; cbn [bind] in H'; try discriminate.
  destruct (vec_get l i) as [w| | |] eqn:Ew; cbn [bind] in H; try discriminate.
  destruct (vec_get l i') as [w'| | |] eqn:Ew'; cbn [bind] in H'; try discriminate.
  destruct (e_pp e w) as [sx| | |] eqn:Ex; cbn [bind] in H; try discriminate.
  destruct (e_pp e w') as [sx'| | |] eqn:Ex'; cbn [bind] in H'; try discriminate.
  apply ok_inj in H, H'. subst d d'. cbn [md_node done] in X. subst w'. apply vec_get_ok in Ew, Ew'.
  assert (i = i') as <-; [|reflexivity].
  apply (proj1 (NoDup_nth_error l) El); [apply nth_error_Some; congruence|congruence].
Qed.

Lemma sol_if_ways e fuel n r d fuel' r' d' :
  sol_if_mutate e fuel n r = Ok d -> sol_if_mutate e fuel' n r' = Ok d' ->
  md_node d = md_node d' -> md_result d = md_result d'.
Proof.
  unfold sol_if_mutate. intros H H' X. destruct (oget n "condition") as [c|] eqn:Ec; [|discriminate].
  destruct (e_pp e c) as [os| | |]; cbn [bind] in *; try discriminate.
  destruct (next_mod 3 r) as [[k r1]| | |] eqn:Ek; cbn [bind] in H; try discriminate.
  destruct (next_mod 3 r') as [[k' r1']| | |] eqn:Ek'; cbn [bind] in H'; try discriminate.
  apply next_mod_lt in Ek, Ek'.
  destruct (oget _ "condition") as [x|] eqn:Ex in H; [|discriminate].
  destruct (oget _ "condition") as [x'|] eqn:Ex' in H'; [|discriminate].
  destruct (e_pp e x) as [ns| | |] eqn:En; cbn [bind] in H; try discriminate.
  destruct (e_pp e x') as [ns'| | |] eqn:En'; cbn [bind] in H'; try discriminate.
  apply ok_inj in H, H'. subst d d'. cbn [md_node done] in X.
  assert (O : is_object n = true) by (eapply oget_is_object; eauto).
  destruct (take_key n "condition") as [[c0 n0]|] eqn:Et.
  2:{ exfalso. rewrite take_key_plain in Et by plain. apply oget_object in Ec. destruct Ec as (o & -> & Ho).
      rewrite Ho in Et. discriminate. }
  assert (T : forall v, set_key n0 "condition" v = set_key n "condition" v)
    by (intros v; exact (proj2 (take_set n "condition" v c0 n0 eq_refl Et))).
  assert (K : forall k, (k < 3)%N -> k = 0%N \/ k = 1%N \/ k = 2%N) by (intros; lia).
  destruct (K k Ek) as [->|[->| ->]]; destruct (K k' Ek') as [->|[->| ->]]; try reflexivity; exfalso;
    rewrite ?T in X; apply set_key_inj in X; try plain; try exact O; try discriminate X;
    apply (f_equal (fun x => oget x "nodeType")) in X; unfold sol_unary_node in X;
    rewrite oget_set_key_other in X by (plain || discriminate); discriminate X.
Qed.

Lemma sol_unchecked_ways e fuel n r d fuel' r' d' :
  sol_unchecked_mutate e fuel n r = Ok d -> sol_unchecked_mutate e fuel' n r' = Ok d' ->
  md_node d = md_node d' -> md_result d = md_result d'.
Proof.
  unfold sol_unchecked_mutate. intros H H' X.
  destruct (take_key n "statements") as [[v n0]|] eqn:Et; [|discriminate]. destruct v as [| | | |l|]; try discriminate.
  destruct (pick_until fuel _ _ r) as [[i r1]| | |] eqn:Ei; cbn [bind] in H; try discriminate.
  destruct (pick_until fuel' _ _ r') as [[i' r1']| | |] eqn:Ei'; cbn [bind] in H'; try discriminate.
  destruct (vec_get l i) as [w| | |] eqn:Ew; cbn [bind] in H; try discriminate.
  destruct (vec_get l i') as [w'| | |] eqn:Ew'; cbn [bind] in H'; try discriminate.
  destruct (e_pp e w) as [sx| | |] eqn:Ex; cbn [bind] in H; try discriminate.
  destruct (e_pp e w') as [sx'| | |] eqn:Ex'; cbn [bind] in H'; try discriminate.
  destruct (e_pp e _) as [sy| | |] eqn:Ey in H; cbn [bind] in H; try discriminate.
  destruct (e_pp e _) as [sy'| | |] eqn:Ey' in H'; cbn [bind] in H'; try discriminate.
  apply ok_inj in H, H'. subst d d'. cbn [md_node done] in X.
  apply (set_taken_inj n "statements" (JArr l)) in X; [|plain|exact Et]. injection X as X.
  apply vec_get_ok in Ew, Ew'.
  destruct (Nat.eq_dec i i') as [<-|N].
  - rewrite Ew in Ew'. injection Ew' as <-. reflexivity.
  - exfalso. apply slots_differ in X; [|apply nth_error_Some; congruence|apply nth_error_Some; congruence|exact N].
    destruct X as (X & _). apply pick_until_ok in Ei. destruct Ei as (B & _). apply orb_false_elim in B. destruct B as (_ & B).
    unfold type_at in B. rewrite X in B.
    match type of B with is_type _ ?u = _ => assert (C : is_sol "UncheckedBlock" u) end.
    { unfold sol_unchecked_node, is_sol, has_field. rewrite !oget_set_key_other by (plain || discriminate). reflexivity. }
    apply is_type_spec in C. congruence.
Qed.

Lemma sol_ways e t m fuel n r d fuel' r' d' : sol_one_way t n ->
  sol_mutator_for e t = Some m -> mu_mutable m n = Ok true ->
  mu_mutate m fuel n r = Ok d -> mu_mutate m fuel' n r' = Ok d' ->
  md_node d = md_node d' -> md_result d = md_result d'.
Proof.
  intros (T1 & T2 & T3 & T4) Hm Ha H H' X.
  destruct t as [[]|[]]; try congruence; injection Hm as <-; cbn [mu_mutate mu_mutable] in *.
  - exact (sol_binop_ways e _ _ fuel n r d fuel' r' d' Ha H H' X).
  - exact (sol_binop_ways e _ _ fuel n r d fuel' r' d' Ha H H' X).
  - exact (sol_binop_ways e _ _ fuel n r d fuel' r' d' Ha H H' X).
  - exact (sol_binop_ways e _ _ fuel n r d fuel' r' d' Ha H H' X).
  - exact (sol_binop_ways e _ _ fuel n r d fuel' r' d' Ha H H' X).
  - exact (sol_assign_ways e fuel n r d fuel' r' d' Ha H H' X).
  - exact (sol_delete_ways e fuel n r d fuel' r' d' H H' X).
  - exact (sol_call_ways e fuel n r d fuel' r' d' (T4 eq_refl) H H' X).
  - exact (sol_if_ways e fuel n r d fuel' r' d' H H' X).
  - exact (proj1 (sol_swapop_record e fuel n r d fuel' r' d' H H')).
  - exact (sol_unary_ways e fuel n r d fuel' r' d' H H' X).
  - exact (proj1 (sol_require_record e fuel n r d fuel' r' d' H H')).
  - exact (sol_unchecked_ways e fuel n r d fuel' r' d' H H' X).
  - unfold sol_delegate_mutate in *. cbn in H, H'. apply ok_inj in H. apply ok_inj in H'. subst. reflexivity.
Qed.

(** ** Vyper *)
Lemma reverse_inj c c' v : assoc c reverse_operators = Some v -> assoc c' reverse_operators = Some v -> c = c'.
Proof.
  assert (B : forall k w, assoc k reverse_operators = Some w -> assoc w python_operators = Some k).
  { intros k w H. assert (F : In (k, w) reverse_operators).
    { revert H. generalize reverse_operators. intros o. induction o as [|[k0 v0] o IH]; cbn [assoc]; [discriminate|].
      destruct (k =?s k0) eqn:E; intros H; [|right; now apply IH]. apply String.eqb_eq in E. injection H as <-. subst. now left. }
    assert (A : forallb (fun kv => match assoc (snd kv) python_operators with
                                   | Some x => x =?s fst kv | None => false end) reverse_operators = true)
      by (vm_compute; reflexivity).
    rewrite forallb_forall in A. specialize (A _ F). cbn [fst snd] in A.
    destruct (assoc w python_operators) as [x|]; [|discriminate]. apply String.eqb_eq in A. now subst. }
  intros H H'. apply B in H, H'. congruence.
Qed.

Lemma vy_binop_ways e t ops fuel n r d fuel' r' d' :
  vy_binop_mutate e t ops fuel n r = Ok d -> vy_binop_mutate e t ops fuel' n r' = Ok d' ->
  md_node d = md_node d' -> md_result d = md_result d'.
Proof.
  unfold vy_binop_mutate. intros H H' X.
  destruct (take_key n "op") as [[op n0]|] eqn:Et; [|discriminate].
  destruct (get_str op "ast_type") as [ot|] eqn:Eo; [|discriminate].
  destruct (e_pp e n) as [os| | |]; cbn [bind] in *; try discriminate.
  destruct (assoc ot python_operators) as [orig|]; [|discriminate].
  destruct (pick_until fuel _ _ r) as [[c r1]| | |]; cbn [bind] in H; try discriminate.
  destruct (pick_until fuel' _ _ r') as [[c' r1']| | |]; cbn [bind] in H'; try discriminate.
  destruct (assoc c reverse_operators) as [v|] eqn:Ev; [|discriminate].
  destruct (assoc c' reverse_operators) as [v'|] eqn:Ev'; [|discriminate].
  destruct (e_pp e _) as [ns| | |] eqn:Ex in H; cbn [bind] in H; try discriminate.
  destruct (e_pp e _) as [ns'| | |] eqn:Ex' in H'; cbn [bind] in H'; try discriminate.
  apply ok_inj in H, H'. subst d d'. cbn [md_node done] in X.
  apply (set_taken_inj n "op" op) in X; [|plain|exact Et]. unfold set_str in X.
  apply get_str_Some in Eo; [|plain]. apply oget_is_object in Eo. apply set_key_inj in X; [|plain|exact Eo].
  injection X as <-. rewrite (reverse_inj _ _ _ Ev Ev'). reflexivity.
Qed.

Lemma small_int_inj a b : (-100 < a < 100)%Z -> (-100 < b < 100)%Z -> vy_int_node a = vy_int_node b -> a = b.
Proof.
  intros A B H. apply (f_equal (fun x => oget x "value")) in H. cbn in H. injection H as H.
  unfold parse_int_literal in H.
  destruct (Z.leb_spec 0 a), (Z.leb_spec 0 b); try lia.
  - replace (a <? 18446744073709551616)%Z with true in H by (symmetry; apply Z.ltb_lt; lia).
    replace (b <? 18446744073709551616)%Z with true in H by (symmetry; apply Z.ltb_lt; lia).
    injection H as H. lia.
  - replace (a <? 18446744073709551616)%Z with true in H by (symmetry; apply Z.ltb_lt; lia).
    replace (-9223372036854775808 <=? b)%Z with true in H by (symmetry; apply Z.leb_le; lia). discriminate.
  - replace (b <? 18446744073709551616)%Z with true in H by (symmetry; apply Z.ltb_lt; lia).
    replace (-9223372036854775808 <=? a)%Z with true in H by (symmetry; apply Z.leb_le; lia). discriminate.
  - replace (-9223372036854775808 <=? a)%Z with true in H by (symmetry; apply Z.leb_le; lia).
    replace (-9223372036854775808 <=? b)%Z with true in H by (symmetry; apply Z.leb_le; lia).
    injection H as H. lia.
Qed.

Lemma land20_le d : (N.land d 20 <= 20)%N.
Proof.
  replace (N.land d 20) with (N.land (N.land d 31) 20) by (rewrite <- N.land_assoc; reflexivity).
  assert (Q : (N.land d 31 < 32)%N) by (change 31%N with (N.ones 5); rewrite N.land_ones; apply N.mod_lt; discriminate).
  set (x := N.land d 31) in *. clearbody x.
  destruct x as [|p]; [cbn; lia|].
  do 5 (try destruct p as [p|p|]; try lia; try (vm_compute; discriminate)).
Qed.

Lemma return_inj v v' : vy_return_node v = vy_return_node v' -> v = v'.
Proof. intros H. apply set_key_inj in H; [exact H|plain|reflexivity]. Qed.

Lemma vy_filler_ways n r l b r1 r' l' b' r1' :
  vy_delete_filler n r = Ok (l, b, r1) -> vy_delete_filler n r' = Ok (l', b', r1') -> l = l' -> b = b'.
Proof.
  unfold vy_delete_filler. intros H H'.
  destruct (oget n "returns") as [ret|].
  2:{ apply ok_inj in H, H'. congruence. }
  destruct (get_str ret "ast_type") as [t|].
  2:{ apply ok_inj in H, H'. congruence. }
  destruct (t =?s "Name").
  - destruct (get_str ret "id") as [id|].
    2:{ apply ok_inj in H, H'. congruence. }
    destruct (slice_to 3 id) as [pre| | |]; cbn [bind] in *; try discriminate.
    destruct (pre =?s "boo").
    { destruct (next_mod 2 r) as [[k r2]| | |] eqn:E; cbn [bind] in H; try discriminate.
      destruct (next_mod 2 r') as [[k' r2']| | |] eqn:E'; cbn [bind] in H'; try discriminate.
      apply ok_inj in H, H'. injection H as <- <- <-. injection H' as <- <- <-. apply next_mod_lt in E, E'.
      intros X. injection X as X. replace k' with k; [reflexivity|].
      destruct (N.eqb_spec k 1), (N.eqb_spec k' 1); try discriminate; lia. }
    destruct (pre =?s "uin").
    { destruct (next_mod 10 r) as [[k r2]| | |] eqn:E; cbn [bind] in H; try discriminate.
      destruct (next_mod 10 r') as [[k' r2']| | |] eqn:E'; cbn [bind] in H'; try discriminate.
      apply ok_inj in H, H'. injection H as <- <- <-. injection H' as <- <- <-. apply next_mod_lt in E, E'.
      intros X. apply (f_equal (fun l => nth 0 l JNull)) in X. apply return_inj, small_int_inj in X; try lia. replace k' with k; [reflexivity|]. lia. }
    destruct (pre =?s "int").
    { destruct (next_u64 r) as (k, r2). destruct (next_u64 r') as (k', r2').
      apply ok_inj in H, H'. injection H as <- <- <-. injection H' as <- <- <-.
      assert (L1 := land20_le k). assert (L2 := land20_le k').
      intros X. apply (f_equal (fun l => nth 0 l JNull)) in X. apply return_inj, small_int_inj in X; try lia. replace (N.land k' 20) with (N.land k 20); [reflexivity|]. lia. }
    destruct (pre =?s "str"); [|discriminate]. apply ok_inj in H, H'. congruence.
  - destruct (t =?s "Pass"). { apply ok_inj in H, H'. congruence. }
    destruct ((t =?s "Tuple") || (t =?s "List"))%bool.
    + destruct (varr_of ret "elements") as [x|]; apply ok_inj in H, H'; congruence.
    + apply ok_inj in H, H'. congruence.
Qed.

Lemma comment_deeper w : vy_comment_node w <> w.
Proof.
  intros H. assert (V : oget (vy_comment_node w) "value" = Some w).
  { unfold vy_comment_node. rewrite oget_set_key_other by (plain || discriminate).
    rewrite oget_set_key_same by (plain || reflexivity). reflexivity. }
  apply jdepth_oget in V. rewrite H in V. lia.
Qed.

Lemma vy_delete_ways e fuel n r d fuel' r' d' :
  vy_delete_mutate e fuel n r = Ok d -> vy_delete_mutate e fuel' n r' = Ok d' ->
  md_node d = md_node d' -> md_result d = md_result d'.
Proof.
  unfold vy_delete_mutate. intros H H' X.
  destruct (take_key n "body") as [[v n0]|] eqn:Et; [|discriminate]. destruct v as [| | | |l|]; try discriminate.
  destruct (random_index _ r) as [[i r1]| | |] eqn:Ei; cbn [bind] in H; try discriminate.
  destruct (random_index _ r') as [[i' r1']| | |] eqn:Ei'; cbn [bind] in H'; try discriminate.
  destruct (vec_get l i) as [w| | |] eqn:Ew; cbn [bind] in H; try discriminate.
  destruct (vec_get l i') as [w'| | |] eqn:Ew'; cbn [bind] in H'; try discriminate.
  apply vec_get_ok in Ew, Ew'.
  assert (Li : i < length l) by (apply nth_error_Some; congruence).
  assert (Li' : i' < length l) by (apply nth_error_Some; congruence).
  assert (P : forall k x, k < length l -> length (vec_put k x l) = length l)
    by (intros k x Hk; exact (proj1 (proj2 (slot_vec_put k x l Hk)))).
  rewrite !P in H by exact Li. rewrite !P in H' by exact Li'.
  destruct (Nat.eqb_spec (length l) 1) as [L1|L1].
  - destruct (vy_delete_filler n0 r1) as [[[m0 b0] r0]| | |] eqn:F; cbn [bind] in H; try discriminate.
    destruct (vy_delete_filler n0 r1') as [[[m0' b0'] r0']| | |] eqn:F'; cbn [bind] in H'; try discriminate.
    apply ok_inj in H, H'. subst d d'. cbn [md_node done] in X.
    apply (set_taken_inj n "body" (JArr l)) in X; [|plain|exact Et]. injection X as X.
    assert (i = 0) as -> by lia. assert (i' = 0) as -> by lia. rewrite Ew in Ew'. injection Ew' as <-.
    apply app_inv_head in X. rewrite (vy_filler_ways _ _ _ _ _ _ _ _ _ F F' X). reflexivity.
  - cbn [bind] in H, H'. apply ok_inj in H, H'. subst d d'. cbn [md_node done] in X.
    apply (set_taken_inj n "body" (JArr l)) in X; [|plain|exact Et]. injection X as X.
    destruct (Nat.eq_dec i i') as [<-|N].
    + rewrite Ew in Ew'. injection Ew' as <-. reflexivity.
    + exfalso. apply slots_differ in X; try assumption. destruct X as (X & _). rewrite Ew in X. injection X as X.
      symmetry in X. exact (comment_deeper _ X).
Qed.

Lemma vy_call_ways e fuel n r d fuel' r' d' :
  (forall l, has_field n "args" (JArr l) -> NoDup l) ->
  vy_call_mutate e fuel n r = Ok d -> vy_call_mutate e fuel' n r' = Ok d' ->
  md_node d = md_node d' -> md_result d = md_result d'.
Proof.
  unfold vy_call_mutate. intros ND H H' X. destruct (varr_of n "args") as [l|] eqn:El; [|discriminate].
  apply varr_of_spec in El. apply ND in El.
  destruct (pick_until fuel _ _ r) as [[i r1]| | |] eqn:Ei; cbn [bind] in H; try discriminate.
  destruct (pick_until fuel' _ _ r') as [[i' r1']| | |] eqn:Ei'; cbn [bind] in H'; try discriminate.
  destruct (vec_get l i) as [w| | |] eqn:Ew; cbn [bind] in H; try discriminate.
  destruct (vec_get l i') as [w'| | |] eqn:Ew'; cbn [bind] in H'; try discriminate.
  destruct (e_pp e n) as [os| | |]; cbn [bind] in *; try discriminate.
  destruct (e_pp e w) as [sx| | |] eqn:Ex; cbn [bind] in H; try discriminate.
  destruct (e_pp e w') as [sx'| | |] eqn:Ex'; cbn [bind] in H'; try discriminate.
  apply ok_inj in H, H'. subst d d'. cbn [md_node done] in X. subst w'. apply vec_get_ok in Ew, Ew'.
  assert (i = i') as <-; [|reflexivity].
  apply (proj1 (NoDup_nth_error l) El); [apply nth_error_Some; congruence|congruence].
Qed.

Lemma vy_if_ways e fuel n r d fuel' r' d' :
  vy_if_mutate e fuel n r = Ok d -> vy_if_mutate e fuel' n r' = Ok d' ->
  md_node d = md_node d' -> md_result d = md_result d'.
Proof.
  unfold vy_if_mutate. intros H H' X. destruct (oget n "test") as [c|] eqn:Ec; [|discriminate].
  destruct (e_pp e c) as [os| | |]; cbn [bind] in *; try discriminate.
  destruct (next_mod 3 r) as [[k r1]| | |] eqn:Ek; cbn [bind] in H; try discriminate.
  destruct (next_mod 3 r') as [[k' r1']| | |] eqn:Ek'; cbn [bind] in H'; try discriminate.
  apply next_mod_lt in Ek, Ek'.
  assert (O : is_object n = true) by (eapply oget_is_object; eauto).
  destruct (take_key n "test") as [[c0 n0]|] eqn:Et.
  2:{ exfalso. rewrite take_key_plain in Et by plain. apply oget_object in Ec. destruct Ec as (o & -> & Ho).
      rewrite Ho in Et. discriminate. }
  assert (T : forall v, set_key n0 "test" v = set_key n "test" v)
    by (intros v; exact (proj2 (take_set n "test" v c0 n0 eq_refl Et))).
  assert (K : forall k, (k < 3)%N -> k = 0%N \/ k = 1%N \/ k = 2%N) by (intros; lia).
  destruct (K k Ek) as [->|[->| ->]]; destruct (K k' Ek') as [->|[->| ->]];
    destruct (e_pp e _) as [ns| | |] eqn:En in H; cbn [bind] in H; try discriminate;
    destruct (e_pp e _) as [ns'| | |] eqn:En' in H'; cbn [bind] in H'; try discriminate;
    apply ok_inj in H, H'; subst d d'; cbn [md_node done] in X; try reflexivity; exfalso;
    rewrite ?T in X; apply set_key_inj in X; try plain; try exact O; try discriminate X;
    apply (f_equal (fun x => oget x "ast_type")) in X; unfold vy_unary_node in X;
    rewrite oget_set_key_other in X by (plain || discriminate); discriminate X.
Qed.

Lemma vy_ways e t m fuel n r d fuel' r' d' : vy_one_way t n ->
  vy_mutator_for e t = Some m ->
  mu_mutate m fuel n r = Ok d -> mu_mutate m fuel' n r' = Ok d' ->
  md_node d = md_node d' -> md_result d = md_result d'.
Proof.
  intros (T1 & T2 & T3 & T5 & T4) Hm H H' X.
  destruct t as [[]|[]]; try congruence; try discriminate; injection Hm as <-; cbn [mu_mutate mu_mutable] in *.
  - exact (vy_binop_ways e _ _ fuel n r d fuel' r' d' H H' X).
  - exact (vy_binop_ways e _ _ fuel n r d fuel' r' d' H H' X).
  - exact (vy_binop_ways e _ _ fuel n r d fuel' r' d' H H' X).
  - exact (vy_binop_ways e _ _ fuel n r d fuel' r' d' H H' X).
  - exact (vy_binop_ways e _ _ fuel n r d fuel' r' d' H H' X).
  - exact (vy_delete_ways e fuel n r d fuel' r' d' H H' X).
  - exact (vy_call_ways e fuel n r d fuel' r' d' (T4 eq_refl) H H' X).
  - exact (vy_if_ways e fuel n r d fuel' r' d' H H' X).
  - exact (proj1 (vy_swapop_record e fuel n r d fuel' r' d' H H')).
  - exact (proj1 (vy_unary_record e fuel n r d fuel' r' d' H H')).
Qed.
