(** Which node the record of a mutation names, and what fills an emptied body. *)
From Coq Require Import String Ascii List NArith ZArith Bool Lia Arith.
From Verif Require Import Base Json Rng MutationType Traverse OpCommon SolMutators VyMutators
  JsonFacts SpecOps OpFacts SolFacts VyFacts SpecRecord RecordFacts RecordWays.
Import ListNotations.
Open Scope list_scope.
Open Scope string_scope.

Lemma ids_oget key n n' : plain_key key = true -> oget n' key = oget n key -> get_ids key n' = get_ids key n.
Proof. intros P H. unfold get_ids. rewrite !get_int_plain by exact P. now rewrite H. Qed.

Lemma ids_set key n k v : plain_key key = true -> plain_key k = true -> key <> k ->
  get_ids key (set_key n k v) = get_ids key n.
Proof. intros P Q D. apply ids_oget; [exact P|]. now apply oget_set_key_other. Qed.

Lemma ids_take key n k w n0 : plain_key key = true -> plain_key k = true -> key <> k ->
  take_key n k = Some (w, n0) -> get_ids key n0 = get_ids key n.
Proof.
  intros P Q D T. rewrite <- (ids_set key n0 k JNull P Q D).
  rewrite (proj2 (take_set n k JNull w n0 Q T)). now apply ids_set.
Qed.

Lemma oget_set_key_at_other j k i v k' : plain_key k = true -> k' <> k -> oget (set_key_at j k i v) k' = oget j k'.
Proof.
  intros P D. unfold set_key_at. rewrite (plain_tokens _ P). destruct j; cbn [ptr_upd]; try reflexivity.
  - rewrite (plain_index _ P). reflexivity.
  - destruct (assoc k o) eqn:E; [|reflexivity]. cbn. now apply assoc_obj_set_other.
Qed.

Lemma names_ids key x mr : plain_key key = true -> mr_node mr = get_ids key x -> names key mr x.
Proof.
  intros P H k B F. rewrite H. unfold get_ids, has_field in *. rewrite get_int_plain, F by exact P.
  unfold juint, as_i64. change (2 ^ 63)%N with 9223372036854775808%N in B. apply N.ltb_lt in B as B'. rewrite B'.
  cbn [option_map]. f_equal. unfold i64_as_u64. rewrite Z.mod_small by lia. apply N2Z.id.
Qed.

Lemma statements_slot n n0 l i w c : take_key n "statements" = Some (JArr l, n0) -> nth_error l i = Some w ->
  has_field n "statements" (JArr l) /\ slot_becomes i c l (vec_put i c l) /\
  has_field (set_key n0 "statements" (JArr (vec_put i c l))) "statements" (JArr (vec_put i c l)).
Proof.
  intros T W. destruct (take_set n "statements" (JArr (vec_put i c l)) _ _ eq_refl T) as (A & E). split; [exact A|]. split.
  - apply slot_vec_put. apply nth_error_Some. congruence.
  - rewrite E. unfold has_field. apply oget_set_key_same; [plain|]. eapply oget_is_object; eauto.
Qed.

(** The record carries the number of the node the operator leaves behind, and
    that node has the number of the original. *)
Ltac same_id :=
  repeat first [ rewrite ids_set by (plain || discriminate)
               | match goal with T : take_key ?n ?k = Some (_, ?n0) |- get_ids ?key ?n0 = _ =>
                   rewrite (ids_take key n k _ n0 eq_refl eq_refl ltac:(discriminate) T) end ];
  reflexivity.

Lemma if_node_id n k : get_ids "id"
  (match k with
   | 0 => set_key n "condition" (sol_bool_node true)
   | 1 => set_key n "condition" (sol_bool_node false)
   | _ => match take_key n "condition" with
          | Some (c, n0) => set_key n0 "condition" (sol_unary_node "!" true (sol_tuple_node [c]))
          | None => n
          end
   end)%N = get_ids "id" n.
Proof. destruct k as [|[p|p|]]; try destruct (take_key n "condition") as [[c n0]|] eqn:T; same_id. Qed.

Lemma sol_named e t m fuel n r d : sol_mutator_for e t = Some m -> mu_mutable m n = Ok true -> mu_mutate m fuel n r = Ok d ->
  exists x, sol_site t n (md_node d) x /\ names "id" (md_result d) x.
Proof.
  intros Hm Ha H.
  assert (Self : t <> Generic DeleteStatement -> t <> Solidity UncheckedBlock -> t <> Generic FunctionCall ->
    mr_node (md_result d) = sol_id n -> exists x, sol_site t n (md_node d) x /\ names "id" (md_result d) x).
  { intros A1 A2 A3 E. exists n. split; [now constructor|]. apply names_ids; [plain|exact E]. }
  assert (B : forall t0 ops, mu_mutable (sol_binop e t0 ops) n = Ok true -> mu_mutate (sol_binop e t0 ops) fuel n r = Ok d ->
    mr_node (md_result d) = sol_id n).
  { intros t0 ops Y Z. unfold sol_binop, mu_mutable, mu_mutate, sol_binop_mutate, sol_binop_mutable in Y, Z.
    destruct (get_str n "operator") as [op|]; [|destruct (is_type "BinaryOperation" n); discriminate].
    ok_inv Z; cbn; unfold sol_id, set_str; same_id. }
  destruct t as [[]|[]]; injection Hm as <-; cbn [mu_mutate mu_mutable] in *;
    try (apply Self; [discriminate|discriminate|discriminate|eapply B; [exact Ha|exact H]]).
  - apply Self; try discriminate. unfold sol_assign, mu_mutate, sol_assign_mutate in H.
    destruct (sol_assign_type n) as [ts|]; [|discriminate].
    destruct (oget n "rightHandSide") as [rhs|]; [|discriminate].
    destruct (e_pp e rhs) as [os| | |]; cbn [bind] in H; try discriminate.
    destruct (sol_assign_value ts r) as [[[v b] r1]| | |]; cbn [bind] in H; try discriminate.
    destruct (oget _ "rightHandSide") as [x|] in H; [|discriminate].
    destruct (e_pp e x) as [ns| | |]; cbn [bind] in H; try discriminate.
    apply ok_inj in H. subst d. cbn [md_result done mr_node]. unfold sol_id. destruct v; [same_id|reflexivity].
  - unfold sol_delete, mu_mutate, sol_delete_mutate in H.
    destruct (take_key n "statements") as [[v n0]|] eqn:Et; [|discriminate]. destruct v as [| | | |l|]; try discriminate.
    destruct (random_index _ r) as [[k r1]| | |] eqn:Ek; cbn [bind] in H; try discriminate.
    destruct (vec_get _ k) as [i| | |] eqn:Ei; cbn [bind] in H; try discriminate.
    destruct (vec_get l i) as [w| | |] eqn:Ew; cbn [bind] in H; try discriminate.
    destruct (e_pp e w) as [s| | |]; cbn [bind] in H; try discriminate.
    apply ok_inj in H. subst d. apply vec_get_ok in Ew. exists w. cbn [md_node md_result done].
    destruct (statements_slot n n0 l i w (sol_comment_node w) Et Ew) as (A1 & A2 & A3).
    split; [|now apply names_ids; [plain|]]. econstructor; try eassumption. apply sol_comment_node_spec.
  - unfold sol_call, mu_mutate, sol_call_mutate in H. destruct (arr_of n "arguments") as [l|] eqn:El; [|discriminate].
    apply arr_of_spec in El.
    destruct (e_pp e n) as [os| | |]; cbn [bind] in *; try discriminate.
    destruct (pick_until fuel _ _ r) as [[i r1]| | |] eqn:Ei; cbn [bind] in H; try discriminate.
    destruct (vec_get l i) as [w| | |] eqn:Ew; cbn [bind] in H; try discriminate.
    destruct (e_pp e w) as [sx| | |] eqn:Ex; cbn [bind] in H; try discriminate.
    apply ok_inj in H. subst d. apply vec_get_ok in Ew. exists w. cbn [md_node md_result done].
    split; [econstructor; [exact El|eapply nth_error_In; exact Ew]|].
    intros k Hk F. cbn [mr_node]. rewrite (oget_is_object _ _ _ F). exact (names_ids "id" w {| mr_type := None; mr_index := None; mr_node := sol_id w; mr_hash := None |} eq_refl eq_refl k Hk F).
  - apply Self; try discriminate. unfold sol_if, mu_mutate, sol_if_mutate in H. destruct (oget n "condition") as [c|] eqn:Ec; [|discriminate].
    destruct (e_pp e c) as [os| | |]; cbn [bind] in *; try discriminate.
    destruct (next_mod 3 r) as [[k r1]| | |] eqn:Ek; cbn [bind] in H; try discriminate.
    destruct (oget _ "condition") as [x|] eqn:Ex in H; [|discriminate].
    destruct (e_pp e x) as [ns| | |] eqn:En; cbn [bind] in H; try discriminate.
    apply ok_inj in H. subst d. cbn [md_result done mr_node]. apply if_node_id.
  - apply Self; try discriminate. unfold sol_int, mu_mutate, sol_int_mutate in H. 
    destruct (next_mod 3 r) as [[k r1]| | |] eqn:Ek; cbn [bind] in H; try discriminate.
    clear B. destruct k as [|[[]|[]|]]; ok_inv H; cbn [md_result done mr_node];
      try match goal with E : _ = Ok (?j, _, _, _) |- context [sol_id ?j] => clear - E; ok_inv E end; unfold sol_id, set_str; same_id.
  - apply Self; try discriminate. unfold sol_swapargs, mu_mutate, sol_swapargs_mutate in H. ok_inv H; cbn [md_result done mr_node]; unfold sol_id; same_id.
  - apply Self; try discriminate. unfold sol_swapop, mu_mutate, sol_swapop_mutate in H. ok_inv H; cbn [md_result done mr_node]; unfold sol_id; same_id.
  - apply Self; try discriminate. unfold sol_swaplines, mu_mutate, sol_swaplines_mutate in H. ok_inv H; cbn [md_result done mr_node]; unfold sol_id; same_id.
  - apply Self; try discriminate. unfold sol_unary, mu_mutate, sol_unary_mutate in H. ok_inv H; cbn [md_result done mr_node]; unfold sol_id, set_str; same_id.
  - apply Self; try discriminate. unfold sol_require, mu_mutate, sol_require_mutate in H. ok_inv H. cbn [md_result done mr_node].
    apply ids_oget; [plain|]. rewrite !oget_set_key_at_other by (plain || discriminate). reflexivity.
  - unfold sol_unchecked, mu_mutate, sol_unchecked_mutate in H.
    destruct (take_key n "statements") as [[v n0]|] eqn:Et; [|discriminate]. destruct v as [| | | |l|]; try discriminate.
    destruct (pick_until fuel _ _ r) as [[i r1]| | |] eqn:Ei; cbn [bind] in H; try discriminate.
    destruct (vec_get l i) as [w| | |] eqn:Ew; cbn [bind] in H; try discriminate.
    destruct (e_pp e w) as [sx| | |] eqn:Ex; cbn [bind] in H; try discriminate.
    destruct (e_pp e _) as [sy| | |] eqn:Ey in H; cbn [bind] in H; try discriminate.
    apply ok_inj in H. subst d. apply vec_get_ok in Ew. exists w. cbn [md_node md_result done].
    split.
    + match goal with |- context [vec_put i ?c l] => destruct (statements_slot n n0 l i w c Et Ew) as (A1 & A2 & A3);
        assert (U : sol_unchecked_of w c) end.
      { split; unfold sol_unchecked_node, is_sol, has_field.
        - rewrite !oget_set_key_other by (plain || discriminate). reflexivity.
        - first [rewrite oget_set_key_same by (plain || reflexivity)
                |rewrite oget_set_key_other by (plain || discriminate); rewrite oget_set_key_same by (plain || reflexivity)]. reflexivity. }
      econstructor; eassumption.
    + intros k Hk F. cbn [mr_node].
      pose proof (names_ids "id" w {| mr_type := None; mr_index := None; mr_node := sol_id w; mr_hash := None |} eq_refl eq_refl k Hk F) as Q.
      cbn [mr_node] in Q. unfold sol_id, get_ids in Q. destruct (get_int w "id") as [z|]; [exact Q|discriminate].
  - apply Self; try discriminate. unfold sol_delegate, mu_mutate, sol_delegate_mutate in H. apply ok_inj in H. subst d. cbn [md_result done mr_node].
    unfold sol_id, set_str. same_id.
Qed.

Lemma vy_swapop_node_id e t n n' sa sb : vy_swapop_edit e t n = Ok (n', sa, sb) -> get_ids "node_id" n' = get_ids "node_id" n.
Proof.
  unfold vy_swapop_edit. intros H. destruct (smem t _).
  - destruct (take_key n "left") as [[a n0]|] eqn:T1; [|apply ok_inj in H; injection H as <- _ _; reflexivity].
    destruct (take_key n0 "right") as [[b n1]|] eqn:T2; [|apply ok_inj in H; injection H as <- _ _; same_id].
    ok_inv H. same_id.
  - ok_inv H; same_id.
Qed.

Lemma vy_named e t m fuel n r d : vy_mutator_for e t = Some m -> mu_mutate m fuel n r = Ok d ->
  exists x, vy_site t n (md_node d) x /\ names "node_id" (md_result d) x.
Proof.
  intros Hm H.
  assert (Self : t <> Generic DeleteStatement -> t <> Generic FunctionCall -> t <> Generic UnaryOp ->
    mr_node (md_result d) = vy_id n -> exists x, vy_site t n (md_node d) x /\ names "node_id" (md_result d) x).
  { intros A1 A2 A3 E. exists n. split; [now constructor|]. apply names_ids; [plain|exact E]. }
  assert (B : forall t0 ops, mu_mutate (vy_binop e t0 ops) fuel n r = Ok d -> mr_node (md_result d) = vy_id n).
  { intros t0 ops Z. unfold vy_binop, mu_mutate, vy_binop_mutate in Z. ok_inv Z; cbn; unfold vy_id, set_str; same_id. }
  destruct t as [[]|[]]; try discriminate; injection Hm as <-; cbn [mu_mutate mu_mutable] in *;
    try (apply Self; [discriminate|discriminate|discriminate|eapply B; exact H]).
  - apply Self; try discriminate. unfold vy_assign, mu_mutate, vy_assign_mutate in H.
    destruct (oget n "value") as [rhs|]; [|discriminate].
    destruct (e_pp e rhs) as [os| | |]; cbn [bind] in H; try discriminate.
    destruct (vy_assign_value e r) as [[[v b] r1]| | |]; cbn [bind] in H; try discriminate.
    destruct (oget _ "value") as [x|] in H; [|discriminate].
    destruct (e_pp e x) as [ns| | |]; cbn [bind] in H; try discriminate.
    apply ok_inj in H. subst d. cbn [md_result done mr_node]. unfold vy_id. same_id.
  - unfold vy_delete, mu_mutate, vy_delete_mutate in H.
    destruct (take_key n "body") as [[v n0]|] eqn:Et; [|discriminate]. destruct v as [| | | |l|]; try discriminate.
    destruct (random_index _ r) as [[i r1]| | |] eqn:Ek; cbn [bind] in H; try discriminate.
    destruct (vec_get l i) as [w| | |] eqn:Ew; cbn [bind] in H; try discriminate. apply vec_get_ok in Ew.
    destruct (if Nat.eqb _ 1 then _ else _) as [[[l2 b] r2]| | |] eqn:E2 in H; cbn [bind] in H; try discriminate.
    apply ok_inj in H. subst d. exists w. cbn [md_node md_result done].
    split; [|now apply names_ids; [plain|]].
    destruct (take_set n "body" (JArr l2) _ _ eq_refl Et) as (A & E).
    assert (Li : i < length l) by (apply nth_error_Some; congruence).
    destruct (slot_vec_put i (vy_comment_node w) l Li) as (_ & L & S1 & _).
    eapply (vy_site_removed n _ l l2 i w (vy_comment_node w)); try assumption.
    + split; unfold is_vy, has_field, vy_comment_node.
      * rewrite !oget_set_key_other by (plain || discriminate). reflexivity.
      * rewrite oget_set_key_other by (plain || discriminate). rewrite oget_set_key_same by (plain || reflexivity). reflexivity.
    + destruct (Nat.eqb _ 1).
      * destruct (vy_delete_filler n0 r1) as [[[m0 b0] r0]| | |]; cbn [bind] in E2; try discriminate.
        apply ok_inj in E2. injection E2 as <- _ _. rewrite nth_error_app1 by (rewrite L; exact Li). exact S1.
      * apply ok_inj in E2. injection E2 as <- _ _. exact S1.
    + rewrite E. unfold has_field. apply oget_set_key_same; [plain|]. eapply oget_is_object; eauto.
  - unfold vy_call, mu_mutate, vy_call_mutate in H. destruct (varr_of n "args") as [l|] eqn:El; [|discriminate].
    apply varr_of_spec in El.
    destruct (pick_until fuel _ _ r) as [[i r1]| | |] eqn:Ei; cbn [bind] in H; try discriminate.
    destruct (vec_get l i) as [w| | |] eqn:Ew; cbn [bind] in H; try discriminate.
    destruct (e_pp e n) as [os| | |]; cbn [bind] in *; try discriminate.
    destruct (e_pp e w) as [sx| | |] eqn:Ex; cbn [bind] in H; try discriminate.
    apply ok_inj in H. subst d. apply vec_get_ok in Ew. exists w. cbn [md_node md_result done].
    split; [econstructor; [exact El|eapply nth_error_In; exact Ew]|].
    intros k Hk F. cbn [mr_node]. rewrite (oget_is_object _ _ _ F). exact (names_ids "node_id" w {| mr_type := None; mr_index := None; mr_node := vy_id w; mr_hash := None |} eq_refl eq_refl k Hk F).
  - apply Self; try discriminate. unfold vy_if, mu_mutate, vy_if_mutate in H. destruct (oget n "test") as [c|] eqn:Ec; [|discriminate].
    destruct (e_pp e c) as [os| | |]; cbn [bind] in *; try discriminate.
    destruct (next_mod 3 r) as [[k r1]| | |] eqn:Ek; cbn [bind] in H; try discriminate.
    destruct k as [|[p|p|]]; try (destruct (take_key n "test") as [[c0 n0]|] eqn:T);
      ok_inv H; cbn [md_result done mr_node]; unfold vy_id; same_id.
  - apply Self; try discriminate. unfold vy_int, mu_mutate, vy_int_mutate in H.
    destruct (e_pp e n) as [os| | |]; cbn [bind] in *; try discriminate.
    destruct (next_mod 3 r) as [[k r1]| | |] eqn:Ek; cbn [bind] in H; try discriminate.
    clear B. destruct k as [|[[]|[]|]]; ok_inv H; cbn [md_result done mr_node];
      try match goal with E : _ = Ok (?j, _) |- context [vy_id ?j] => clear - E; ok_inv E end; unfold vy_id; same_id.
  - apply Self; try discriminate. unfold vy_swapargs, mu_mutate, vy_swapargs_mutate in H. ok_inv H; cbn [md_result done mr_node]; unfold vy_id; same_id.
  - apply Self; try discriminate. unfold vy_swapop, mu_mutate, vy_swapop_mutate in H. destruct (get_str n "ast_type") as [t|]; [|discriminate].
    destruct (vy_swapop_edit e t n) as [[[n' sa] sb]| | |] eqn:E; cbn [bind] in *; try discriminate.
    apply ok_inj in H. subst d. cbn [md_result done mr_node]. exact (vy_swapop_node_id _ _ _ _ _ _ E).
  - apply Self; try discriminate. unfold vy_swaplines, mu_mutate, vy_swaplines_mutate in H. ok_inv H; cbn [md_result done mr_node]; unfold vy_id; same_id.
  - unfold vy_unary, mu_mutate, vy_unary_mutate in H. destruct (e_pp e n) as [os| | |]; cbn [bind] in *; try discriminate.
    destruct (take_key n "operand") as [[x n0]|] eqn:T; [|discriminate].
    destruct (e_pp e x) as [ns| | |]; cbn [bind] in *; try discriminate.
    apply ok_inj in H. subst d. exists x. cbn [md_node md_result done].
    split; [constructor; exact (proj1 (take_set n "operand" JNull _ _ eq_refl T))|]. now apply names_ids; [plain|].
Qed.

(** ** Emptied bodies *)
Lemma slice_prefix s p : slice_to 3 s = Ok p -> prefix p s = true.
Proof.
  unfold slice_to. destruct (_ && _)%bool; [|discriminate]. intros H. apply ok_inj in H. subst p.
  destruct s as [|a [|b [|c s]]]; cbn; try reflexivity.
  all: repeat (destruct (ascii_dec _ _) as [_|N]; [|now destruct N]); try reflexivity. now destruct s.
Qed.

Lemma fillers n n0 r l b r1 : (forall k, k <> "body" -> oget n0 k = oget n k) -> fillable n ->
  vy_delete_filler n0 r = Ok (l, b, r1) -> exists m, l = [m] /\ fills n m.
Proof.
  intros K F H. unfold vy_delete_filler in H. rewrite (K "returns") in H by discriminate.
  assert (R : forall v, is_vy "Return" (vy_return_node v) /\ has_field (vy_return_node v) "value" v).
  { intros v. unfold is_vy, has_field, vy_return_node. split.
    - rewrite oget_set_key_other by (plain || discriminate). reflexivity.
    - rewrite oget_set_key_same by (plain || reflexivity). reflexivity. }
  destruct (oget n "returns") as [ret|] eqn:Er.
  2:{ apply ok_inj in H. injection H as <- _ _. eexists. split; [reflexivity|]. apply fill_pass; [|reflexivity].
      unfold has_field. intros x t X. congruence. }
  destruct (get_str ret "ast_type") as [t|] eqn:Et.
  2:{ apply ok_inj in H. injection H as <- _ _. eexists. split; [reflexivity|]. apply fill_pass; [|reflexivity].
      unfold has_field. intros x t X Y. rewrite Er in X. injection X as <-. unfold is_vy, has_field in Y.
      apply get_str_Some in Y; [|plain]. congruence. }
  apply get_str_Some in Et; [|plain].
  assert (I : forall z, (-100 < z < 100)%Z -> is_vy "Int" (vy_int_node z) /\ has_field (vy_int_node z) "value" (jint z)).
  { intros z Hz. split; [reflexivity|]. unfold vy_int_node, has_field, parse_int_literal, jint. cbn. f_equal.
    destruct (Z.leb_spec 0 z).
    - replace (z <? 18446744073709551616)%Z with true by (symmetry; apply Z.ltb_lt; lia).
      destruct z; [reflexivity|reflexivity|lia].
    - replace (-9223372036854775808 <=? z)%Z with true by (symmetry; apply Z.leb_le; lia).
      destruct z; [lia|lia|reflexivity]. }
  destruct (F ret t Er Et) as [(-> & id & Hid)|(Ht & es & Hes)].
  - rewrite String.eqb_refl in H. replace (get_str ret "id") with (Some id) in H by (symmetry; apply get_str_Some; [plain|exact Hid]).
    destruct (slice_to 3 id) as [pre| | |] eqn:Ep; cbn [bind] in H; try discriminate. apply slice_prefix in Ep.
    destruct (String.eqb_spec pre "boo") as [->|_].
    { destruct (next_mod 2 r) as [[k r2]| | |]; cbn [bind] in H; try discriminate. apply ok_inj in H. injection H as <- _ _.
      eexists. split; [reflexivity|]. eapply fill_bool; try eassumption; try apply R. split; reflexivity. }
    destruct (String.eqb_spec pre "uin") as [->|_].
    { destruct (next_mod 10 r) as [[k r2]| | |] eqn:Ek; cbn [bind] in H; try discriminate. apply ok_inj in H. injection H as <- _ _.
      apply next_mod_lt in Ek. destruct (I (Z.of_N k)) as (I1 & I2); [lia|].
      eexists. split; [reflexivity|]. eapply fill_uint; try eassumption; try apply R. lia. }
    destruct (String.eqb_spec pre "int") as [->|_].
    { destruct (next_u64 r) as (k, r2). apply ok_inj in H. injection H as <- _ _. assert (L := land20_le k).
      destruct (I (Z.of_N (N.land k 20) - 10)%Z) as (I1 & I2); [lia|].
      eexists. split; [reflexivity|]. eapply fill_int; try eassumption; try apply R. lia. }
    destruct (String.eqb_spec pre "str") as [->|_]; [|discriminate].
    apply ok_inj in H. injection H as <- _ _. eexists. split; [reflexivity|].
    eapply fill_str; try eassumption; try apply R; reflexivity.
  - replace (varr_of ret "elements") with (Some es) in H by (symmetry; apply varr_of_spec; exact Hes).
    assert (Q : l = [vy_return_node (vy_list_node (length es) t)]).
    { destruct Ht as [->| ->]; cbn in H; injection H as <- _ _; reflexivity. }
    subst l. eexists. split; [reflexivity|]. destruct (R (vy_list_node (length es) t)) as (R1 & R2).
    eapply fill_tuple; try eassumption; unfold vy_list_node.
    + unfold is_vy, has_field. rewrite oget_set_key_other by (plain || discriminate). reflexivity.
    + unfold has_field. rewrite oget_set_key_same by (plain || reflexivity). reflexivity.
    + apply repeat_length.
Qed.

Lemma vy_delete_filled e m fuel n r d x : vy_mutator_for e (Generic DeleteStatement) = Some m -> fillable n ->
  has_field n "body" (JArr [x]) -> mu_mutate m fuel n r = Ok d ->
  exists c s, field_becomes "body" (JArr [c; s]) n (md_node d) /\ vy_commented x c /\ fills n s.
Proof.
  intros Hm F B H. injection Hm as <-. unfold vy_delete, mu_mutate, vy_delete_mutate in H.
  destruct (take_key n "body") as [[v n0]|] eqn:Et; [|discriminate].
  destruct (take_set n "body" JNull _ _ eq_refl Et) as (A & E). unfold has_field in B. rewrite A in B. injection B as ->.
  destruct (random_index _ r) as [[i r1]| | |] eqn:Ek; cbn [bind] in H; try discriminate.
  destruct (vec_get [x] i) as [w| | |] eqn:Ew; cbn [bind] in H; try discriminate. apply vec_get_ok in Ew.
  destruct i as [|[]]; try discriminate. injection Ew as <-.
  change (Nat.eqb (length (vec_put 0 (vy_comment_node x) [x])) 1) with true in H. cbv iota in H.
  destruct (vy_delete_filler n0 r1) as [[[m0 b0] r0]| | |] eqn:Ef; cbn [bind] in H; try discriminate.
  apply ok_inj in H. subst d. cbn [md_node done].
  apply (fillers n) in Ef as (s & -> & Fs); [|intros k D|exact F].
  - exists (vy_comment_node x), s. split; [|split; [|exact Fs]].
    + change (List.app (vec_put 0 (vy_comment_node x) [x]) [s]) with [vy_comment_node x; s]. eapply field_take_set; [plain|exact Et].
    + split; unfold is_vy, has_field, vy_comment_node.
      * rewrite !oget_set_key_other by (plain || discriminate). reflexivity.
      * rewrite oget_set_key_other by (plain || discriminate). rewrite oget_set_key_same by (plain || reflexivity). reflexivity.
  - rewrite <- (oget_set_key_other n0 "body" k JNull) by (plain || exact D). rewrite E. now apply oget_set_key_other.
Qed.
