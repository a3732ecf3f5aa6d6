(** What the record of a mutation determines. *)
From Coq Require Import String Ascii List NArith ZArith Bool Lia Arith.
From Verif Require Import Base Json Rng MutationType Traverse OpCommon SolMutators VyMutators
  JsonFacts SpecOps OpFacts SolFacts VyFacts SpecRecord.
Import ListNotations.
Open Scope list_scope.
Open Scope string_scope.

(** ** Hashes and byte strings *)
Lemma hex_digit_inj a b : (a < 16)%N -> (b < 16)%N -> hex_digit a = hex_digit b -> a = b.
Proof.
  intros A B.
  assert (C : forall x, (x < 16)%N -> In x [0;1;2;3;4;5;6;7;8;9;10;11;12;13;14;15]%N).
  { intros x X. simpl. destruct x as [|p]; [auto|].
    do 4 (destruct p as [p|p|]; try lia; simpl; try tauto). }
  apply C in A. apply C in B. clear C. simpl in A, B.
  repeat (destruct A as [<-|A]); try contradiction;
    repeat (destruct B as [<-|B]); try contradiction; try reflexivity; vm_compute; discriminate.
Qed.

Lemma hex_encode_inj a : forall b, hex_encode a = hex_encode b -> a = b.
Proof.
  induction a as [|c a IH]; intros [|d b]; cbn [hex_encode]; try discriminate; [reflexivity|].
  intros H. injection H as H1 H2 H3.
  pose proof (N_ascii_bounded c) as Bc. pose proof (N_ascii_bounded d) as Bd.
  apply hex_digit_inj in H1; [|apply N.div_lt_upper_bound; lia|apply N.div_lt_upper_bound; lia].
  apply hex_digit_inj in H2; [|apply N.mod_lt; lia|apply N.mod_lt; lia].
  f_equal; [|now apply IH].
  rewrite <- (ascii_N_embedding c), <- (ascii_N_embedding d). f_equal.
  rewrite (N.div_mod (N_of_ascii c) 16), (N.div_mod (N_of_ascii d) 16) by lia. congruence.
Qed.

Lemma hash_inj e a b : hashes_differ e -> hash e a = hash e b -> a = b.
Proof. unfold hash. intros D H. apply D. now apply hex_encode_inj. Qed.

Lemma le_bytes_inj k : forall a b, (a < 256 ^ N.of_nat k)%N -> (b < 256 ^ N.of_nat k)%N ->
  le_bytes k a = le_bytes k b -> a = b.
Proof.
  induction k as [|k IH]; intros a b A B; cbn [le_bytes].
  - simpl in A, B. lia.
  - rewrite Nat2N.inj_succ, N.pow_succ_r' in A, B. intros H. injection H as H1 H2.
    assert (X : (a mod 256 = b mod 256)%N).
    { rewrite <- (N_ascii_embedding (a mod 256)), <- (N_ascii_embedding (b mod 256)) by (apply N.mod_lt; lia).
      now rewrite H1. }
    apply IH in H2; [|apply N.div_lt_upper_bound; lia|apply N.div_lt_upper_bound; lia].
    rewrite (N.div_mod a 256), (N.div_mod b 256) by lia. congruence.
Qed.

Lemma le_bytes_length k : forall a, String.length (le_bytes k a) = k.
Proof. induction k as [|k IH]; intros a; simpl; [reflexivity|now rewrite IH]. Qed.

Lemma append_inj_l a : forall a' b b', String.length a = String.length a' ->
  a ++ b = a' ++ b' -> a = a' /\ b = b'.
Proof.
  induction a as [|c a IH]; intros [|c' a'] b b' L H; simpl in *; try discriminate; [auto|].
  injection L as L. injection H as -> H. destruct (IH _ _ _ L H) as (-> & ->). auto.
Qed.

Lemma le_bytes_Z_inj k a b lo : (lo <= a < lo + 2 ^ (8 * Z.of_nat k))%Z -> (lo <= b < lo + 2 ^ (8 * Z.of_nat k))%Z ->
  le_bytes_Z k a = le_bytes_Z k b -> a = b.
Proof.
  unfold le_bytes_Z. intros A B H. set (M := (2 ^ (8 * Z.of_nat k))%Z) in *.
  assert (P : (0 < M)%Z) by (apply Z.pow_pos_nonneg; lia).
  assert (E : (256 ^ N.of_nat k = Z.to_N M)%N).
  { apply N2Z.inj. rewrite Z2N.id by lia. rewrite N2Z.inj_pow. unfold M. rewrite Z.pow_mul_r by lia.
    rewrite nat_N_Z. reflexivity. }
  apply le_bytes_inj in H.
  - apply Z2N.inj in H; try (apply Z.mod_pos_bound; lia).
    assert (D : ((a - b) mod M = 0)%Z) by (rewrite Zminus_mod, H, Z.sub_diag; apply Zmod_0_l).
    apply Z.mod_divide in D; [|lia]. destruct D as (q & D). clear E H. clearbody M.
    assert (q < 1)%Z by (apply (Z.mul_lt_mono_pos_r M); lia). assert (-1 < q)%Z by (apply (Z.mul_lt_mono_pos_r M); lia).
    assert (q = 0)%Z by lia. subst q. lia.
  - rewrite E. apply Z2N.inj_lt; try lia; apply Z.mod_pos_bound; lia.
  - rewrite E. apply Z2N.inj_lt; try lia; apply Z.mod_pos_bound; lia.
Qed.

Lemma next_mod_u64 k r i r' : next_mod k r = Ok (i, r') -> (i < 18446744073709551616)%N.
Proof.
  unfold next_mod, next_u64. destruct k as [|p]; [discriminate|]. simpl. intros H. injection H as <- _.
  eapply N.le_lt_trans; [apply N.mod_le; lia|]. apply N.mod_lt. lia.
Qed.

Lemma index_u64 len r i r' : random_index len r = Ok (i, r') -> (N.of_nat i < 18446744073709551616)%N.
Proof.
  unfold random_index. intros H. ok_inv H. apply next_mod_u64 in E. lia.
Qed.

Lemma picked_u64 fuel len bad r i r' :
  pick_until fuel (random_index len) bad r = Ok (i, r') -> (N.of_nat i < 18446744073709551616)%N.
Proof. intros H. apply pick_until_ok in H. destruct H as (_ & rr & H). eapply index_u64, H. Qed.

Lemma usize_inj i j : (N.of_nat i < 18446744073709551616)%N -> (N.of_nat j < 18446744073709551616)%N ->
  usize_bytes i = usize_bytes j -> i = j.
Proof. unfold usize_bytes. intros A B H. apply le_bytes_inj in H; [lia|exact A|exact B]. Qed.

(** ** The record determines the mutant *)

(** Two runs of one computation give one result. *)
Ltac one_result :=
  repeat match goal with
  | A : Ok _ = Ok _ |- _ => injection A; clear A; intros; subst
  | A : ?t = Ok ?x, B : ?t = Ok ?y |- _ =>
      let C := fresh in assert (C : x = y) by congruence; clear B; try (injection C; clear C; intros; subst); try subst
  | A : ?t = Some ?x, B : ?t = Some ?y |- _ =>
      let C := fresh in assert (C : x = y) by congruence; clear B; try (injection C; clear C; intros; subst); try subst
  end.

Definition same_outcome (d d' : mutated) : Prop := md_node d = md_node d' /\ md_comment d = md_comment d'.

Lemma hash_of e a b : hashes_differ e -> Some (hash e a) = Some (hash e b) -> a = b.
Proof. intros D H. injection H as H. eapply hash_inj; eauto. Qed.

Lemma sol_binop_record e t ops fuel n r d fuel' r' d' : hashes_differ e ->
  sol_binop_mutable ops n = Ok true ->
  sol_binop_mutate e t ops fuel n r = Ok d -> sol_binop_mutate e t ops fuel' n r' = Ok d' ->
  mr_hash (md_result d) = mr_hash (md_result d') -> same_outcome d d'.
Proof.
  unfold sol_binop_mutable, sol_binop_mutate. intros D Hm H H' X.
  destruct (get_str n "operator") as [op|] eqn:Eo.
  2:{ destruct (is_type "BinaryOperation" n); discriminate. }
  ok_inv H. ok_inv H'. cbn [md_result done mr_hash] in X. apply hash_of in X; [|exact D]. subst. split; reflexivity.
Qed.

Lemma sol_unary_record e fuel n r d fuel' r' d' : hashes_differ e ->
  sol_unary_mutate e fuel n r = Ok d -> sol_unary_mutate e fuel' n r' = Ok d' ->
  mr_hash (md_result d) = mr_hash (md_result d') -> same_outcome d d'.
Proof.
  unfold sol_unary_mutate. intros D H H' X. destruct (get_bool n "prefix") as [p|]; [|discriminate].
  ok_inv H. ok_inv H'. cbn [md_result done mr_hash] in X. apply hash_of in X; [|exact D].
  unfold byte_str in X. injection X as X. subst. split; reflexivity.
Qed.

Lemma sol_assign_value_record ts r v b r1 r' v' b' r1' :
  sol_assign_value ts r = Ok (v, b, r1) -> sol_assign_value ts r' = Ok (v', b', r1') -> b = b' -> v = v'.
Proof.
  unfold sol_assign_value. intros H H'.
  destruct (slice_to 3 ts) as [pre| | |]; cbn [bind] in *; try discriminate.
  destruct (pre =?s "int").
  { destruct (slice_from 3 ts) as [sz| | |]; cbn [bind] in *; try discriminate.
    destruct (parse_unsigned 32 sz) as [k|]; [|discriminate].
    set (size := if N.ltb 128 k then 128%N else k) in *.
    assert (Hs : (size <= 128)%N) by (unfold size; destruct (N.ltb_spec 128 k); lia). clearbody size.
    destruct (N.eqb_spec size 0); [discriminate|]. destruct (N.eqb_spec size 128); [discriminate|]. cbn [orb] in *.
    ok_inv H. ok_inv H'. apply gen_range_bounds in E, E0. intros X. apply (append_inj_l "int" "int") in X; [|reflexivity]. destruct X as (_ & X).
    apply (le_bytes_Z_inj 16 z z0 (- 2 ^ (Z.of_N size - 1))) in X; [now subst|..];
      (assert ((2 ^ (Z.of_N size - 1) <= 2 ^ 127)%Z) by (apply Z.pow_le_mono_r; lia);
       change (2 ^ (8 * Z.of_nat 16))%Z with (2 * 2 ^ 127)%Z;
       assert (0 < 2 ^ (Z.of_N size - 1))%Z by (apply Z.pow_pos_nonneg; lia); lia). }
  destruct (pre =?s "uin").
  { destruct (slice_from 4 ts) as [sz| | |]; cbn [bind] in *; try discriminate.
    destruct (parse_unsigned 32 sz) as [k|]; [|discriminate].
    set (size := if N.ltb 128 k then 128%N else k) in *.
    assert (Hs : (size <= 128)%N) by (unfold size; destruct (N.ltb_spec 128 k); lia). clearbody size.
    ok_inv H. ok_inv H'. apply gen_range_bounds in E, E0. intros X. apply (append_inj_l "uin" "uin") in X; [|reflexivity]. destruct X as (_ & X).
    apply (le_bytes_Z_inj 16 z z0 0) in X; [now subst|..];
      (assert ((2 ^ Z.of_N size <= 2 ^ 128)%Z) by (apply Z.pow_le_mono_r; lia);
       change (2 ^ (8 * Z.of_nat 16))%Z with (2 ^ 128)%Z; lia). }
  destruct (pre =?s "boo").
  { destruct (ts =?s "bool"); [|discriminate]. ok_inv H. ok_inv H'. apply gen_range_bounds in E, E0. intros X. apply (append_inj_l "boo" "boo") in X; [|reflexivity]. destruct X as (_ & X).
    assert (z = 0)%Z as -> by lia. assert (z0 = 0)%Z as -> by lia. reflexivity. }
  ok_inv H. ok_inv H'. reflexivity.
Qed.

Lemma sol_assign_record e fuel n r d fuel' r' d' : hashes_differ e ->
  sol_assign_mutate e fuel n r = Ok d -> sol_assign_mutate e fuel' n r' = Ok d' ->
  mr_hash (md_result d) = mr_hash (md_result d') -> same_outcome d d'.
Proof.
  unfold sol_assign_mutate. intros D H H' X. destruct (sol_assign_type n) as [ts|]; [|discriminate].
  destruct (oget n "rightHandSide") as [rhs|]; [|discriminate].
  destruct (e_pp e rhs) as [os| | |]; cbn [bind] in *; try discriminate.
  destruct (sol_assign_value ts r) as [[[v b] r1]| | |] eqn:Ea; cbn [bind] in *; try discriminate.
  destruct (sol_assign_value ts r') as [[[v' b'] r1']| | |] eqn:Ea'; cbn [bind] in *; try discriminate.
  assert (Q : b = b' -> v = v') by (intros; eapply sol_assign_value_record; eauto).
  destruct (oget (match v with Some v => set_key n "rightHandSide" v | None => n end) "rightHandSide") as [x|] eqn:Ex; [|discriminate].
  destruct (oget (match v' with Some v => set_key n "rightHandSide" v | None => n end) "rightHandSide") as [x'|] eqn:Ex'; [|discriminate].
  ok_inv H. ok_inv H'. cbn [md_result done mr_hash] in X. apply hash_of in X; [|exact D]. apply Q in X. subst.
  one_result. split; reflexivity.
Qed.

Lemma sol_delete_record e fuel n r d fuel' r' d' : hashes_differ e ->
  sol_delete_mutate e fuel n r = Ok d -> sol_delete_mutate e fuel' n r' = Ok d' ->
  mr_hash (md_result d) = mr_hash (md_result d') -> same_outcome d d'.
Proof.
  unfold sol_delete_mutate. intros D H H' X.
  destruct (take_key n "statements") as [[v n0]|]; [|discriminate]. destruct v as [| | | |l|]; try discriminate.
  ok_inv H. ok_inv H'. cbn [md_result done mr_hash] in X. apply hash_of in X; [|exact D].
  apply usize_inj in X; [|eapply index_u64; eauto|eapply index_u64; eauto]. subst. one_result. split; reflexivity.
Qed.

Lemma sol_call_record e fuel n r d fuel' r' d' : hashes_differ e ->
  sol_call_mutate e fuel n r = Ok d -> sol_call_mutate e fuel' n r' = Ok d' ->
  mr_hash (md_result d) = mr_hash (md_result d') -> same_outcome d d'.
Proof.
  unfold sol_call_mutate. intros D H H' X. destruct (arr_of n "arguments") as [l|]; [|discriminate].
  ok_inv H. ok_inv H'. cbn [md_result done mr_hash] in X. apply hash_of in X; [|exact D].
  apply usize_inj in X; [|eapply picked_u64; eauto|eapply picked_u64; eauto]. subst. one_result. split; reflexivity.
Qed.

Lemma sol_swapargs_record e fuel n r d fuel' r' d' : hashes_differ e ->
  sol_swapargs_mutate e fuel n r = Ok d -> sol_swapargs_mutate e fuel' n r' = Ok d' ->
  mr_hash (md_result d) = mr_hash (md_result d') -> same_outcome d d'.
Proof.
  unfold sol_swapargs_mutate. intros D H H' X.
  destruct (take_key n "arguments") as [[v n0]|]; [|discriminate]. destruct v as [| | | |l|]; try discriminate.
  destruct (random_index _ r) as [[k r1]| | |] eqn:Ek; cbn [bind] in H; try discriminate.
  destruct (random_index _ r') as [[k' r1']| | |] eqn:Ek'; cbn [bind] in H'; try discriminate.
  assert (Q : usize_bytes k = usize_bytes k' -> k = k')
    by (intros; eapply usize_inj; [eapply index_u64; eauto|eapply index_u64; eauto|assumption]).
  ok_inv H. ok_inv H'. cbn [md_result done mr_hash] in X. apply hash_of in X; [|exact D].
  apply Q in X. subst. one_result. split; reflexivity.
Qed.

Lemma sol_if_record e fuel n r d fuel' r' d' : hashes_differ e ->
  sol_if_mutate e fuel n r = Ok d -> sol_if_mutate e fuel' n r' = Ok d' ->
  mr_hash (md_result d) = mr_hash (md_result d') -> same_outcome d d'.
Proof.
  unfold sol_if_mutate. intros D H H' X. destruct (oget n "condition") as [c|]; [|discriminate].
  destruct (e_pp e c) as [os| | |]; cbn [bind] in *; try discriminate.
  destruct (next_mod 3 r) as [[k r1]| | |] eqn:Ek; cbn [bind] in H; try discriminate.
  destruct (next_mod 3 r') as [[k' r1']| | |] eqn:Ek'; cbn [bind] in H'; try discriminate.
  assert (Q : byte_str k = byte_str k' -> k = k').
  { apply next_mod_lt in Ek, Ek'. intros Z. unfold byte_str in Z. injection Z as Z.
    rewrite <- (N_ascii_embedding k), <- (N_ascii_embedding k') by lia. now rewrite Z. }
  destruct (oget _ "condition") as [x|] eqn:Ex in H; [|discriminate].
  destruct (oget _ "condition") as [x'|] eqn:Ex' in H'; [|discriminate].
  destruct (e_pp e x) as [ns| | |] eqn:En; cbn [bind] in H; try discriminate.
  destruct (e_pp e x') as [ns'| | |] eqn:En'; cbn [bind] in H'; try discriminate.
  apply ok_inj in H. apply ok_inj in H'. subst d d'. cbn [md_result done mr_hash] in X. apply hash_of in X; [|exact D].
  apply Q in X. subst k'. rewrite Ex in Ex'. injection Ex' as <-. rewrite En in En'. injection En' as <-. split; reflexivity.
Qed.

Lemma sol_swapop_record e fuel n r d fuel' r' d' :
  sol_swapop_mutate e fuel n r = Ok d -> sol_swapop_mutate e fuel' n r' = Ok d' ->
  md_result d = md_result d' /\ same_outcome d d'.
Proof.
  unfold sol_swapop_mutate. intros H H'. destruct (take_key n "leftExpression") as [[a n0]|]; [|discriminate].
  destruct (take_key n0 "rightExpression") as [[b n1]|]; [|discriminate].
  destruct (e_pp e a) as [sa| | |]; cbn [bind] in *; try discriminate.
  destruct (e_pp e b) as [sb| | |]; cbn [bind] in *; try discriminate.
  apply ok_inj in H. apply ok_inj in H'. subst. repeat split; reflexivity.
Qed.

Lemma sol_swaplines_record e fuel n r d fuel' r' d' : hashes_differ e ->
  sol_swaplines_mutate e fuel n r = Ok d -> sol_swaplines_mutate e fuel' n r' = Ok d' ->
  mr_hash (md_result d) = mr_hash (md_result d') -> same_outcome d d'.
Proof.
  unfold sol_swaplines_mutate. intros D H H' X.
  destruct (take_key n "statements") as [[v n0]|]; [|discriminate]. destruct v as [| | | |l|]; try discriminate.
  destruct (pick_until fuel _ _ r) as [[i r1]| | |] eqn:Ei; cbn [bind] in H; try discriminate.
  destruct (pick_until fuel' _ _ r') as [[i' r1']| | |] eqn:Ei'; cbn [bind] in H'; try discriminate.
  destruct (pick_until fuel _ _ r1) as [[j r2]| | |] eqn:Ej; cbn [bind] in H; try discriminate.
  destruct (pick_until fuel' _ _ r1') as [[j' r2']| | |] eqn:Ej'; cbn [bind] in H'; try discriminate.
  assert (Q : usize_bytes i ++ usize_bytes j = usize_bytes i' ++ usize_bytes j' -> i = i' /\ j = j').
  { apply picked_u64 in Ei, Ei', Ej, Ej'. intros Z. apply append_inj_l in Z; [|unfold usize_bytes; now rewrite !le_bytes_length].
    destruct Z as (Z1 & Z2). split; apply usize_inj; assumption. }
  destruct (vec_swap i j l) as [[[l1 x] y]| | |] eqn:Ev; cbn [bind] in H; try discriminate.
  destruct (vec_swap i' j' l) as [[[l1' x'] y']| | |] eqn:Ev'; cbn [bind] in H'; try discriminate.
  destruct (e_pp e x) as [sx| | |] eqn:Ex; cbn [bind] in H; try discriminate.
  destruct (e_pp e y) as [sy| | |] eqn:Ey; cbn [bind] in H; try discriminate.
  destruct (e_pp e x') as [sx'| | |] eqn:Ex'; cbn [bind] in H'; try discriminate.
  destruct (e_pp e y') as [sy'| | |] eqn:Ey'; cbn [bind] in H'; try discriminate.
  apply ok_inj in H. apply ok_inj in H'. subst d d'. cbn [md_result done mr_hash] in X. apply hash_of in X; [|exact D].
  apply Q in X. destruct X as (<- & <-). rewrite Ev in Ev'. injection Ev' as <- <- <-.
  rewrite Ex in Ex'. injection Ex' as <-. rewrite Ey in Ey'. injection Ey' as <-. split; reflexivity.
Qed.

Lemma sol_require_record e fuel n r d fuel' r' d' :
  sol_require_mutate e fuel n r = Ok d -> sol_require_mutate e fuel' n r' = Ok d' ->
  md_result d = md_result d' /\ same_outcome d d'.
Proof.
  unfold sol_require_mutate. intros H H'. destruct (arr_of n "arguments") as [[|a l]|]; try discriminate.
  destruct (e_pp e a) as [sa| | |]; cbn [bind] in *; try discriminate.
  destruct (e_pp e (sol_require_node a)) as [sb| | |]; cbn [bind] in *; try discriminate.
  apply ok_inj in H. apply ok_inj in H'. subst. repeat split; reflexivity.
Qed.

Lemma sol_unchecked_record e fuel n r d fuel' r' d' : hashes_differ e ->
  sol_unchecked_mutate e fuel n r = Ok d -> sol_unchecked_mutate e fuel' n r' = Ok d' ->
  mr_hash (md_result d) = mr_hash (md_result d') -> same_outcome d d'.
Proof.
  unfold sol_unchecked_mutate. intros D H H' X.
  destruct (take_key n "statements") as [[v n0]|]; [|discriminate]. destruct v as [| | | |l|]; try discriminate.
  destruct (pick_until fuel _ _ r) as [[i r1]| | |] eqn:Ei; cbn [bind] in H; try discriminate.
  destruct (pick_until fuel' _ _ r') as [[i' r1']| | |] eqn:Ei'; cbn [bind] in H'; try discriminate.
  assert (Q : usize_bytes i = usize_bytes i' -> i = i') by (apply picked_u64 in Ei, Ei'; now apply usize_inj).
  destruct (vec_get l i) as [w| | |] eqn:Ew; cbn [bind] in H; try discriminate.
  destruct (vec_get l i') as [w'| | |] eqn:Ew'; cbn [bind] in H'; try discriminate.
  destruct (e_pp e w) as [sx| | |] eqn:Ex; cbn [bind] in H; try discriminate.
  destruct (e_pp e w') as [sx'| | |] eqn:Ex'; cbn [bind] in H'; try discriminate.
  destruct (e_pp e _) as [sy| | |] eqn:Ey in H; cbn [bind] in H; try discriminate.
  destruct (e_pp e _) as [sy'| | |] eqn:Ey' in H'; cbn [bind] in H'; try discriminate.
  apply ok_inj in H. apply ok_inj in H'. subst d d'. cbn [md_result done mr_hash] in X. apply hash_of in X; [|exact D].
  apply Q in X. subst i'. rewrite Ew in Ew'. injection Ew' as <-. rewrite Ex in Ex'. injection Ex' as <-.
  rewrite Ey in Ey'. injection Ey' as <-. split; reflexivity.
Qed.

Lemma sol_record e t m fuel n r d fuel' r' d' : hashes_differ e -> t <> Generic Integer ->
  sol_mutator_for e t = Some m -> mu_mutable m n = Ok true ->
  mu_mutate m fuel n r = Ok d -> mu_mutate m fuel' n r' = Ok d' ->
  mr_hash (md_result d) = mr_hash (md_result d') -> same_outcome d d'.
Proof.
  intros D Ht Hm Ha H H' X. rename X into Y.
  destruct t as [[]|[]]; try congruence; injection Hm as <-; cbn [mu_mutate mu_mutable] in *.
  - exact (sol_binop_record e _ _ fuel n r d fuel' r' d' D Ha H H' Y).
  - exact (sol_binop_record e _ _ fuel n r d fuel' r' d' D Ha H H' Y).
  - exact (sol_binop_record e _ _ fuel n r d fuel' r' d' D Ha H H' Y).
  - exact (sol_binop_record e _ _ fuel n r d fuel' r' d' D Ha H H' Y).
  - exact (sol_binop_record e _ _ fuel n r d fuel' r' d' D Ha H H' Y).
  - exact (sol_assign_record e fuel n r d fuel' r' d' D H H' Y).
  - exact (sol_delete_record e fuel n r d fuel' r' d' D H H' Y).
  - exact (sol_call_record e fuel n r d fuel' r' d' D H H' Y).
  - exact (sol_if_record e fuel n r d fuel' r' d' D H H' Y).
  - exact (sol_swapargs_record e fuel n r d fuel' r' d' D H H' Y).
  - exact (proj2 (sol_swapop_record e fuel n r d fuel' r' d' H H')).
  - exact (sol_swaplines_record e fuel n r d fuel' r' d' D H H' Y).
  - exact (sol_unary_record e fuel n r d fuel' r' d' D H H' Y).
  - exact (proj2 (sol_require_record e fuel n r d fuel' r' d' H H')).
  - exact (sol_unchecked_record e fuel n r d fuel' r' d' D H H' Y).
  - unfold sol_delegate_mutate in *. cbn in H, H'. apply ok_inj in H. apply ok_inj in H'. subst. split; reflexivity.
Qed.

(** ** Vyper *)
Lemma vy_binop_record e t ops fuel n r d fuel' r' d' : hashes_differ e ->
  vy_binop_mutate e t ops fuel n r = Ok d -> vy_binop_mutate e t ops fuel' n r' = Ok d' ->
  mr_hash (md_result d) = mr_hash (md_result d') -> same_outcome d d'.
Proof.
  unfold vy_binop_mutate. intros D H H' X.
  destruct (take_key n "op") as [[op n0]|]; [|discriminate].
  destruct (get_str op "ast_type") as [ot|]; [|discriminate].
  destruct (e_pp e n) as [os| | |]; cbn [bind] in *; try discriminate.
  destruct (assoc ot python_operators) as [orig|]; [|discriminate].
  destruct (pick_until fuel _ _ r) as [[c r1]| | |]; cbn [bind] in H; try discriminate.
  destruct (pick_until fuel' _ _ r') as [[c' r1']| | |]; cbn [bind] in H'; try discriminate.
  destruct (assoc c reverse_operators) as [v|] eqn:Ev; [|discriminate].
  destruct (assoc c' reverse_operators) as [v'|] eqn:Ev'; [|discriminate].
  destruct (e_pp e _) as [ns| | |] eqn:Ex in H; cbn [bind] in H; try discriminate.
  destruct (e_pp e _) as [ns'| | |] eqn:Ex' in H'; cbn [bind] in H'; try discriminate.
  apply ok_inj in H. apply ok_inj in H'. subst d d'. cbn [md_result done mr_hash] in X. apply hash_of in X; [|exact D].
  subst c'. rewrite Ev in Ev'. injection Ev' as <-. rewrite Ex in Ex'. injection Ex' as <-. split; reflexivity.
Qed.

Lemma byte_str_inj a b : (a < 256)%N -> (b < 256)%N -> byte_str a = byte_str b -> a = b.
Proof.
  unfold byte_str. intros A B H. injection H as H. rewrite <- (N_ascii_embedding a), <- (N_ascii_embedding b) by lia.
  now rewrite H.
Qed.

Lemma append_byte a b x y : (a < 256)%N -> (b < 256)%N -> byte_str a ++ x = byte_str b ++ y -> a = b /\ x = y.
Proof.
  intros A B H. apply append_inj_l in H; [|reflexivity]. destruct H as (H & ->). split; [now apply byte_str_inj|reflexivity].
Qed.

Definition vy_assign_kind (e : env) (k : N) (r1 : rng) : res (json * string * rng) :=
  match k with
  | 0%N =>
      let? (v, r2) := gen_range (-170141183460469231731687303715884105728)
                                170141183460469231731687303715884105727 r1 in
      Ok (vy_int_node v, byte_str 0 ++ le_bytes_Z 16 v, r2)
  | 1%N =>
      let? (v, r2) := gen_range 0 340282366920938463463374607431768211455 r1 in
      Ok (vy_int_node v, byte_str 1 ++ le_bytes_Z 16 v, r2)
  | 2%N =>
      let? (b, r2) := next_mod 2 r1 in
      Ok (vy_bool_node (N.eqb b 1), byte_str 2 ++ le_bytes 8 b, r2)
  | _ =>
      let (d, r2) := draw r1 in
      let f := e_rand_float e d in
      Ok (vy_float_node (e_show_float e f), byte_str 3 ++ e_float_bytes e f, r2)
  end.

(** The possible replacements: a first byte for the kind and the bytes of the
    value. *)
Lemma vy_assign_value_ways e r v b r1 : vy_assign_value e r = Ok (v, b, r1) ->
  (exists z, v = vy_int_node z /\ b = byte_str 0 ++ le_bytes_Z 16 z /\ (- 2 ^ 127 <= z < 2 ^ 127)%Z) \/
  (exists z, v = vy_int_node z /\ b = byte_str 1 ++ le_bytes_Z 16 z /\ (0 <= z < 2 ^ 128)%Z) \/
  (exists k, v = vy_bool_node (N.eqb k 1) /\ b = byte_str 2 ++ le_bytes 8 k /\ (k < 2)%N) \/
  (exists f, v = vy_float_node (e_show_float e f) /\ b = byte_str 3 ++ e_float_bytes e f).
Proof.
  unfold vy_assign_value. intros H.
  destruct (next_mod 4 r) as [[k r0]| | |]; cbn [bind] in H; try discriminate.
  change (vy_assign_kind e k r0 = Ok (v, b, r1)) in H. unfold vy_assign_kind in H.
  assert (F : (let (d, r2) := draw r0 in
      let f := e_rand_float e d in
      Ok (vy_float_node (e_show_float e f), byte_str 3 ++ e_float_bytes e f, r2)) = Ok (v, b, r1) ->
      exists f, v = vy_float_node (e_show_float e f) /\ b = byte_str 3 ++ e_float_bytes e f).
  { destruct (draw r0) as (d0, r2). cbv zeta. intros Z. apply ok_inj in Z. injection Z as <- <- <-. eauto. }
  destruct k as [|[[|[]|]|[|[]|]|]]; try (right; right; right; exact (F H)).
  - left. destruct (gen_range _ _ r0) as [[z r2]| | |] eqn:E; cbn [bind] in H; try discriminate.
    apply ok_inj in H. injection H as <- <- <-. apply gen_range_bounds in E. exists z. split; [reflexivity|].
    split; [reflexivity|]. change (2 ^ 127)%Z with 170141183460469231731687303715884105728%Z. lia.
  - right; right; left. destruct (next_mod 2 r0) as [[k r2]| | |] eqn:E; cbn [bind] in H; try discriminate.
    apply ok_inj in H. injection H as <- <- <-. apply next_mod_lt in E. eauto.
  - right; left. destruct (gen_range _ _ r0) as [[z r2]| | |] eqn:E; cbn [bind] in H; try discriminate.
    apply ok_inj in H. injection H as <- <- <-. apply gen_range_bounds in E. exists z. split; [reflexivity|].
    split; [reflexivity|]. change (2 ^ 128)%Z with 340282366920938463463374607431768211456%Z. lia.
Qed.

Lemma vy_assign_value_record e r v b r1 r' v' b' r1' : float_bytes_differ e ->
  vy_assign_value e r = Ok (v, b, r1) -> vy_assign_value e r' = Ok (v', b', r1') -> b = b' -> v = v'.
Proof.
  intros D H H' X. apply vy_assign_value_ways in H, H'.
  assert (S8 : (2 ^ (8 * Z.of_nat 16) = 2 ^ 128)%Z) by reflexivity.
  assert (S7 : (2 ^ 128 = 2 * 2 ^ 127)%Z) by reflexivity.
  destruct H as [(z & -> & B & R)|[(z & -> & B & R)|[(z & -> & B & R)|(z & -> & B)]]];
  destruct H' as [(z' & -> & B' & R')|[(z' & -> & B' & R')|[(z' & -> & B' & R')|(z' & -> & B')]]];
  rewrite B, B' in X; apply append_byte in X; try lia; destruct X as (X1 & X2); try discriminate; clear B B' X1.
  - apply (le_bytes_Z_inj 16 z z' (- 2 ^ 127)) in X2; [now subst|rewrite S8; lia|rewrite S8; lia].
  - apply (le_bytes_Z_inj 16 z z' 0) in X2; [now subst|rewrite S8; lia|rewrite S8; lia].
  - apply le_bytes_inj in X2; [now subst|..]; (change (256 ^ N.of_nat 8)%N with 18446744073709551616%N; lia).
  - apply D in X2. now rewrite X2.
Qed.

Lemma vy_assign_record e fuel n r d fuel' r' d' : hashes_differ e -> float_bytes_differ e ->
  vy_assign_mutate e fuel n r = Ok d -> vy_assign_mutate e fuel' n r' = Ok d' ->
  mr_hash (md_result d) = mr_hash (md_result d') -> same_outcome d d'.
Proof.
  unfold vy_assign_mutate. intros D F H H' X. destruct (oget n "value") as [c|]; [|discriminate].
  destruct (e_pp e c) as [os| | |]; cbn [bind] in *; try discriminate.
  destruct (vy_assign_value e r) as [[[v b] r1]| | |] eqn:Ea; cbn [bind] in *; try discriminate.
  destruct (vy_assign_value e r') as [[[v' b'] r1']| | |] eqn:Ea'; cbn [bind] in *; try discriminate.
  assert (Q : b = b' -> v = v') by (intros; eapply vy_assign_value_record; eauto).
  destruct (oget _ "value") as [x|] eqn:Ex in H; [|discriminate].
  destruct (oget _ "value") as [x'|] eqn:Ex' in H'; [|discriminate].
  destruct (e_pp e x) as [ns| | |] eqn:En; cbn [bind] in H; try discriminate.
  destruct (e_pp e x') as [ns'| | |] eqn:En'; cbn [bind] in H'; try discriminate.
  apply ok_inj in H. apply ok_inj in H'. subst d d'. cbn [md_result done mr_hash] in X. apply hash_of in X; [|exact D].
  apply Q in X. subst v'. rewrite Ex in Ex'. injection Ex' as <-. rewrite En in En'. injection En' as <-. split; reflexivity.
Qed.

Lemma vy_filler_record n r l b r1 r' l' b' r1' :
  vy_delete_filler n r = Ok (l, b, r1) -> vy_delete_filler n r' = Ok (l', b', r1') -> b = b' -> l = l'.
Proof.
  assert (U : forall a c, (a < 18446744073709551616)%N -> (c < 18446744073709551616)%N ->
     le_bytes 8 a = le_bytes 8 c -> a = c) by (intros; now apply (le_bytes_inj 8)).
  unfold vy_delete_filler. intros H H'.
  destruct (oget n "returns") as [ret|].
  2:{ apply ok_inj in H, H'. congruence. }
  destruct (get_str ret "ast_type") as [t|].
  2:{ apply ok_inj in H, H'. congruence. }
  destruct (t =?s "Name").
  - destruct (get_str ret "id") as [id|].
    2:{ apply ok_inj in H, H'. congruence. }
    destruct (slice_to 3 id) as [pre| | |]; cbn [bind] in *; try discriminate.
    destruct (pre =?s "boo").
    { destruct (next_mod 2 r) as [[k r2]| | |] eqn:E; cbn [bind] in H; try discriminate.
      destruct (next_mod 2 r') as [[k' r2']| | |] eqn:E'; cbn [bind] in H'; try discriminate.
      apply ok_inj in H, H'. injection H as <- <- <-. injection H' as <- <- <-. apply next_mod_lt in E, E'.
      intros X. apply U in X; [now subst|lia|lia]. }
    destruct (pre =?s "uin").
    { destruct (next_mod 10 r) as [[k r2]| | |] eqn:E; cbn [bind] in H; try discriminate.
      destruct (next_mod 10 r') as [[k' r2']| | |] eqn:E'; cbn [bind] in H'; try discriminate.
      apply ok_inj in H, H'. injection H as <- <- <-. injection H' as <- <- <-. apply next_mod_lt in E, E'.
      intros X. apply U in X; [now subst|lia|lia]. }
    destruct (pre =?s "int").
    { destruct (next_u64 r) as (k, r2). destruct (next_u64 r') as (k', r2').
      apply ok_inj in H, H'. injection H as <- <- <-. injection H' as <- <- <-.
      assert (L : forall d, (N.land d 20 < 18446744073709551616)%N).
      { intros d. replace (N.land d 20) with (N.land (N.land d 31) 20) by (rewrite <- N.land_assoc; reflexivity).
        assert (Q : (N.land d 31 < 32)%N) by (change 31%N with (N.ones 5); rewrite N.land_ones; apply N.mod_lt; discriminate).
        set (x := N.land d 31) in *. clearbody x.
        assert (G : (N.land x 20 <= 20)%N); [|lia].
        destruct x as [|p]; [cbn; lia|].
        do 5 (try destruct p as [p|p|]; try lia; try (vm_compute; discriminate)). }
      intros X. apply U in X; [now rewrite X|apply L|apply L]. }
    destruct (pre =?s "str"); [|discriminate]. apply ok_inj in H, H'. congruence.
  - destruct (t =?s "Pass"). { apply ok_inj in H, H'. congruence. }
    destruct ((t =?s "Tuple") || (t =?s "List"))%bool.
    + destruct (varr_of ret "elements") as [x|]; apply ok_inj in H, H'; congruence.
    + apply ok_inj in H, H'. congruence.
Qed.

Lemma vy_delete_record e fuel n r d fuel' r' d' : hashes_differ e ->
  vy_delete_mutate e fuel n r = Ok d -> vy_delete_mutate e fuel' n r' = Ok d' ->
  mr_hash (md_result d) = mr_hash (md_result d') -> same_outcome d d'.
Proof.
  unfold vy_delete_mutate. intros D H H' X.
  destruct (take_key n "body") as [[v n0]|]; [|discriminate]. destruct v as [| | | |l|]; try discriminate.
  destruct (random_index _ r) as [[i r1]| | |] eqn:Ei; cbn [bind] in H; try discriminate.
  destruct (random_index _ r') as [[i' r1']| | |] eqn:Ei'; cbn [bind] in H'; try discriminate.
  destruct (vec_get l i) as [w| | |] eqn:Ew; cbn [bind] in H; try discriminate.
  destruct (vec_get l i') as [w'| | |] eqn:Ew'; cbn [bind] in H'; try discriminate.
  assert (Q : forall b b', usize_bytes i ++ b = usize_bytes i' ++ b' -> i = i' /\ b = b').
  { intros b b' Z. apply append_inj_l in Z; [|unfold usize_bytes; now rewrite !le_bytes_length].
    destruct Z as (Z & ->). split; [|reflexivity]. apply index_u64 in Ei, Ei'. now apply usize_inj. }
  destruct (if Nat.eqb _ 1 then _ else _) as [[[l2 b] r2]| | |] eqn:E2 in H; cbn [bind] in H; try discriminate.
  destruct (if Nat.eqb _ 1 then _ else _) as [[[l2' b'] r2']| | |] eqn:E2' in H'; cbn [bind] in H'; try discriminate.
  apply ok_inj in H. apply ok_inj in H'. subst d d'. cbn [md_result done mr_hash] in X. apply hash_of in X; [|exact D].
  apply Q in X. destruct X as (<- & <-). rewrite Ew in Ew'. injection Ew' as <-.
  assert (l2 = l2') as <-; [|split; reflexivity].
  destruct (Nat.eqb _ 1).
  - destruct (vy_delete_filler n0 r1) as [[[m0 b0] r0]| | |] eqn:F; cbn [bind] in E2; try discriminate.
    destruct (vy_delete_filler n0 r1') as [[[m0' b0'] r0']| | |] eqn:F'; cbn [bind] in E2'; try discriminate.
    apply ok_inj in E2, E2'. injection E2 as <- <- <-. injection E2' as <- <- <-. f_equal.
    eapply vy_filler_record; eauto.
  - apply ok_inj in E2, E2'. congruence.
Qed.

Lemma vy_call_record e fuel n r d fuel' r' d' : hashes_differ e ->
  vy_call_mutate e fuel n r = Ok d -> vy_call_mutate e fuel' n r' = Ok d' ->
  mr_hash (md_result d) = mr_hash (md_result d') -> same_outcome d d'.
Proof.
  unfold vy_call_mutate. intros D H H' X. destruct (varr_of n "args") as [l|]; [|discriminate].
  destruct (pick_until fuel _ _ r) as [[i r1]| | |] eqn:Ei; cbn [bind] in H; try discriminate.
  destruct (pick_until fuel' _ _ r') as [[i' r1']| | |] eqn:Ei'; cbn [bind] in H'; try discriminate.
  assert (Q : usize_bytes i = usize_bytes i' -> i = i') by (apply picked_u64 in Ei, Ei'; now apply usize_inj).
  destruct (vec_get l i) as [w| | |] eqn:Ew; cbn [bind] in H; try discriminate.
  destruct (vec_get l i') as [w'| | |] eqn:Ew'; cbn [bind] in H'; try discriminate.
  destruct (e_pp e n) as [os| | |]; cbn [bind] in *; try discriminate.
  destruct (e_pp e w) as [sx| | |] eqn:Ex; cbn [bind] in H; try discriminate.
  destruct (e_pp e w') as [sx'| | |] eqn:Ex'; cbn [bind] in H'; try discriminate.
  apply ok_inj in H. apply ok_inj in H'. subst d d'. cbn [md_result done mr_hash] in X. apply hash_of in X; [|exact D].
  apply Q in X. subst i'. rewrite Ew in Ew'. injection Ew' as <-. rewrite Ex in Ex'. injection Ex' as <-. split; reflexivity.
Qed.

(** The last steps of swapping two arguments. *)
Lemma vy_swap_finish e n0 l i j bytes fuel0 d :
  (let? a1 := vec_get l i in
   let? a2 := vec_get l j in
   let? s1 := e_pp e a1 in
   let? s2 := e_pp e a2 in
   let n'' := set_key n0 "args" (JArr (replace_at j a1 (replace_at i a2 l))) in
   Ok (done (Generic SwapFunctionArguments) n'' (vy_id n'') (Some (hash e bytes))
         (vy_comment ("SwapFunctionArguments Mutator: swapped '" ++ s1 ++ "', for '" ++ s2 ++ "'")) fuel0)) = Ok d ->
  exists a1 a2 s1 s2, vec_get l i = Ok a1 /\ vec_get l j = Ok a2 /\ e_pp e a1 = Ok s1 /\ e_pp e a2 = Ok s2 /\
    mr_hash (md_result d) = Some (hash e bytes) /\
    md_node d = set_key n0 "args" (JArr (replace_at j a1 (replace_at i a2 l))) /\
    md_comment d = Some (vy_comment ("SwapFunctionArguments Mutator: swapped '" ++ s1 ++ "', for '" ++ s2 ++ "'")).
Proof.
  intros H.
  destruct (vec_get l i) as [w| | |] eqn:Ew; cbn [bind] in H; try discriminate.
  destruct (vec_get l j) as [w'| | |] eqn:Ew'; cbn [bind] in H; try discriminate.
  destruct (e_pp e w) as [sx| | |] eqn:Ex; cbn [bind] in H; try discriminate.
  destruct (e_pp e w') as [sx'| | |] eqn:Ex'; cbn [bind] in H; try discriminate.
  apply ok_inj in H. subst d. exists w, w', sx, sx'. repeat (split; [assumption || reflexivity|]). reflexivity.
Qed.

Lemma vy_swapargs_record e fuel n r d fuel' r' d' : hashes_differ e ->
  vy_swapargs_mutate e fuel n r = Ok d -> vy_swapargs_mutate e fuel' n r' = Ok d' ->
  mr_hash (md_result d) = mr_hash (md_result d') -> same_outcome d d'.
Proof.
  unfold vy_swapargs_mutate. intros D H H' X.
  destruct (take_key n "args") as [[v n0]|]; [|discriminate]. destruct v as [| | | |l|]; try discriminate.
  destruct (length l) as [|[|[|len]]] eqn:El.
  - apply ok_inj in H. apply ok_inj in H'. subst. split; reflexivity.
  - apply ok_inj in H. apply ok_inj in H'. subst. split; reflexivity.
  - apply vy_swap_finish in H, H'. destruct H as (a1 & a2 & s1 & s2 & G1 & G2 & P1 & P2 & _ & N & C).
    destruct H' as (a1' & a2' & s1' & s2' & G1' & G2' & P1' & P2' & _ & N' & C').
    one_result. split; congruence.
  - destruct (random_index _ r) as [[i r1]| | |] eqn:Ei; cbn [bind] in H; try discriminate.
    destruct (random_index _ r') as [[i' r1']| | |] eqn:Ei'; cbn [bind] in H'; try discriminate.
    destruct (pick_until fuel _ _ r1) as [[j r2]| | |] eqn:Ej; cbn [bind] in H; try discriminate.
    destruct (pick_until fuel' _ _ r1') as [[j' r2']| | |] eqn:Ej'; cbn [bind] in H'; try discriminate.
    apply vy_swap_finish in H, H'. destruct H as (a1 & a2 & s1 & s2 & G1 & G2 & P1 & P2 & HH & N & C).
    destruct H' as (a1' & a2' & s1' & s2' & G1' & G2' & P1' & P2' & HH' & N' & C').
    rewrite HH, HH' in X. apply hash_of in X; [|exact D].
    apply append_inj_l in X; [|unfold usize_bytes; now rewrite !le_bytes_length]. destruct X as (X1 & X2).
    apply index_u64 in Ei, Ei'. apply picked_u64 in Ej, Ej'.
    apply usize_inj in X1; [|assumption|assumption]. apply usize_inj in X2; [|assumption|assumption]. subst i' j'.
    one_result. split; congruence.
Qed.

Lemma vy_if_record e fuel n r d fuel' r' d' : hashes_differ e ->
  vy_if_mutate e fuel n r = Ok d -> vy_if_mutate e fuel' n r' = Ok d' ->
  mr_hash (md_result d) = mr_hash (md_result d') -> same_outcome d d'.
Proof.
  unfold vy_if_mutate. intros D H H' X. destruct (oget n "test") as [c|]; [|discriminate].
  destruct (e_pp e c) as [os| | |]; cbn [bind] in *; try discriminate.
  destruct (next_mod 3 r) as [[k r1]| | |] eqn:Ek; cbn [bind] in H; try discriminate.
  destruct (next_mod 3 r') as [[k' r1']| | |] eqn:Ek'; cbn [bind] in H'; try discriminate.
  assert (Q : le_bytes 8 k = le_bytes 8 k' -> k = k').
  { apply next_mod_u64 in Ek, Ek'. intros. now apply (le_bytes_inj 8). }
  assert (F : forall k0 r0 base new d0,
    (let? new_s := e_pp e new in
     let n' := set_key base "test" new in
     Ok (done (Generic IfStatement) n' (vy_id n') (Some (hash e (le_bytes 8 k0)))
           (vy_comment ("IfStatement Mutator: changed test condition '" ++ os ++ "' to '" ++ new_s ++ "'")) r0)) = Ok d0 ->
    exists s, e_pp e new = Ok s /\ mr_hash (md_result d0) = Some (hash e (le_bytes 8 k0)) /\
      md_node d0 = set_key base "test" new /\
      md_comment d0 = Some (vy_comment ("IfStatement Mutator: changed test condition '" ++ os ++ "' to '" ++ s ++ "'"))).
  { intros k0 r0 base new d0 Z. destruct (e_pp e new) as [s| | |]; cbn [bind] in Z; try discriminate.
    apply ok_inj in Z. subst d0. exists s. repeat split; reflexivity. }
  assert (G : forall k0 r0 d0,
    match k0 with
    | 0%N => let? new_s := e_pp e (vy_bool_node true) in
     let n' := set_key n "test" (vy_bool_node true) in
     Ok (done (Generic IfStatement) n' (vy_id n') (Some (hash e (le_bytes 8 k0)))
           (vy_comment ("IfStatement Mutator: changed test condition '" ++ os ++ "' to '" ++ new_s ++ "'")) r0)
    | 1%N => let? new_s := e_pp e (vy_bool_node false) in
     let n' := set_key n "test" (vy_bool_node false) in
     Ok (done (Generic IfStatement) n' (vy_id n') (Some (hash e (le_bytes 8 k0)))
           (vy_comment ("IfStatement Mutator: changed test condition '" ++ os ++ "' to '" ++ new_s ++ "'")) r0)
    | _ => match take_key n "test" with
           | Some (c0, n0) => let? new_s := e_pp e (vy_unary_node "Not" c0) in
             let n' := set_key n0 "test" (vy_unary_node "Not" c0) in
             Ok (done (Generic IfStatement) n' (vy_id n') (Some (hash e (le_bytes 8 k0)))
              (vy_comment ("IfStatement Mutator: changed test condition '" ++ os ++ "' to '" ++ new_s ++ "'")) r0)
           | None => Ok {| md_node := n;
                    md_result := {| mr_type := Some (Generic IfStatement); mr_index := None;
                                    mr_node := vy_id n; mr_hash := Some (hash e (le_bytes 8 k0)) |};
                    md_comment := None; md_rng := r0 |}
           end
    end = Ok d0 -> mr_hash (md_result d0) = Some (hash e (le_bytes 8 k0)) /\
      forall r0' d0',
    match k0 with
    | 0%N => let? new_s := e_pp e (vy_bool_node true) in
     let n' := set_key n "test" (vy_bool_node true) in
     Ok (done (Generic IfStatement) n' (vy_id n') (Some (hash e (le_bytes 8 k0)))
           (vy_comment ("IfStatement Mutator: changed test condition '" ++ os ++ "' to '" ++ new_s ++ "'")) r0')
    | 1%N => let? new_s := e_pp e (vy_bool_node false) in
     let n' := set_key n "test" (vy_bool_node false) in
     Ok (done (Generic IfStatement) n' (vy_id n') (Some (hash e (le_bytes 8 k0)))
           (vy_comment ("IfStatement Mutator: changed test condition '" ++ os ++ "' to '" ++ new_s ++ "'")) r0')
    | _ => match take_key n "test" with
           | Some (c0, n0) => let? new_s := e_pp e (vy_unary_node "Not" c0) in
             let n' := set_key n0 "test" (vy_unary_node "Not" c0) in
             Ok (done (Generic IfStatement) n' (vy_id n') (Some (hash e (le_bytes 8 k0)))
              (vy_comment ("IfStatement Mutator: changed test condition '" ++ os ++ "' to '" ++ new_s ++ "'")) r0')
           | None => Ok {| md_node := n;
                    md_result := {| mr_type := Some (Generic IfStatement); mr_index := None;
                                    mr_node := vy_id n; mr_hash := Some (hash e (le_bytes 8 k0)) |};
                    md_comment := None; md_rng := r0' |}
           end
    end = Ok d0' -> same_outcome d0 d0').
  { clear - F. intros k0 r0 d0 H. split.
    - destruct k0 as [|[p|p|]]; try (destruct (take_key n "test") as [[c0 n0]|]);
        try (apply F in H; destruct H as (s & _ & H & _); exact H); apply ok_inj in H; subst d0; reflexivity.
    - intros r0' d0' H'.
      destruct k0 as [|[p|p|]]; try (destruct (take_key n "test") as [[c0 n0]|]);
        try (apply F in H, H'; destruct H as (s & S1 & _ & S2 & S3); destruct H' as (s' & S1' & _ & S2' & S3');
             one_result; split; congruence); apply ok_inj in H; apply ok_inj in H'; subst; split; reflexivity. }
  destruct (G k r1 d H) as (A & B). destruct (G k' r1' d' H') as (A' & _).
  rewrite A, A' in X. apply hash_of in X; [|exact D]. apply Q in X. subst k'. exact (B _ _ H').
Qed.

Lemma vy_swapop_record e fuel n r d fuel' r' d' :
  vy_swapop_mutate e fuel n r = Ok d -> vy_swapop_mutate e fuel' n r' = Ok d' ->
  md_result d = md_result d' /\ same_outcome d d'.
Proof.
  unfold vy_swapop_mutate. intros H H'. destruct (get_str n "ast_type") as [t|]; [|discriminate].
  destruct (vy_swapop_edit e t n) as [[[n' sa] sb]| | |]; cbn [bind] in *; try discriminate.
  apply ok_inj in H. apply ok_inj in H'. subst. repeat split; reflexivity.
Qed.

Lemma vy_swaplines_record e fuel n r d fuel' r' d' : hashes_differ e ->
  vy_swaplines_mutate e fuel n r = Ok d -> vy_swaplines_mutate e fuel' n r' = Ok d' ->
  mr_hash (md_result d) = mr_hash (md_result d') -> same_outcome d d'.
Proof.
  unfold vy_swaplines_mutate. intros D H H' X.
  destruct (take_key n "body") as [[v n0]|]; [|discriminate]. destruct v as [| | | |l|]; try discriminate.
  destruct (pick_until fuel _ _ r) as [[i r1]| | |] eqn:Ei; cbn [bind] in H; try discriminate.
  destruct (pick_until fuel' _ _ r') as [[i' r1']| | |] eqn:Ei'; cbn [bind] in H'; try discriminate.
  destruct (pick_until fuel _ _ r1) as [[j r2]| | |] eqn:Ej; cbn [bind] in H; try discriminate.
  destruct (pick_until fuel' _ _ r1') as [[j' r2']| | |] eqn:Ej'; cbn [bind] in H'; try discriminate.
  assert (Q : usize_bytes i ++ usize_bytes j = usize_bytes i' ++ usize_bytes j' -> i = i' /\ j = j').
  { apply picked_u64 in Ei, Ei', Ej, Ej'. intros Z. apply append_inj_l in Z; [|unfold usize_bytes; now rewrite !le_bytes_length].
    destruct Z as (Z1 & Z2). split; apply usize_inj; assumption. }
  destruct (vec_swap i j l) as [[[l1 x] y]| | |] eqn:Ev; cbn [bind] in H; try discriminate.
  destruct (vec_swap i' j' l) as [[[l1' x'] y']| | |] eqn:Ev'; cbn [bind] in H'; try discriminate.
  destruct (e_pp e x) as [sx| | |] eqn:Ex; cbn [bind] in H; try discriminate.
  destruct (e_pp e y) as [sy| | |] eqn:Ey; cbn [bind] in H; try discriminate.
  destruct (e_pp e x') as [sx'| | |] eqn:Ex'; cbn [bind] in H'; try discriminate.
  destruct (e_pp e y') as [sy'| | |] eqn:Ey'; cbn [bind] in H'; try discriminate.
  apply ok_inj in H. apply ok_inj in H'. subst d d'. cbn [md_result done mr_hash] in X. apply hash_of in X; [|exact D].
  apply Q in X. destruct X as (<- & <-). rewrite Ev in Ev'. injection Ev' as <- <- <-.
  rewrite Ex in Ex'. injection Ex' as <-. rewrite Ey in Ey'. injection Ey' as <-. split; reflexivity.
Qed.

Lemma vy_unary_record e fuel n r d fuel' r' d' :
  vy_unary_mutate e fuel n r = Ok d -> vy_unary_mutate e fuel' n r' = Ok d' ->
  md_result d = md_result d' /\ same_outcome d d'.
Proof.
  unfold vy_unary_mutate. intros H H'. destruct (e_pp e n) as [os| | |]; cbn [bind] in *; try discriminate.
  destruct (take_key n "operand") as [[x n0]|]; [|discriminate].
  destruct (e_pp e x) as [ns| | |]; cbn [bind] in *; try discriminate.
  apply ok_inj in H. apply ok_inj in H'. subst. repeat split; reflexivity.
Qed.

Lemma vy_record e t m fuel n r d fuel' r' d' : hashes_differ e -> float_bytes_differ e -> t <> Generic Integer ->
  vy_mutator_for e t = Some m ->
  mu_mutate m fuel n r = Ok d -> mu_mutate m fuel' n r' = Ok d' ->
  mr_hash (md_result d) = mr_hash (md_result d') -> same_outcome d d'.
Proof.
  intros D F Ht Hm H H' X. rename X into Y.
  destruct t as [[]|[]]; try congruence; try discriminate; injection Hm as <-; cbn [mu_mutate mu_mutable] in *.
  - exact (vy_binop_record e _ _ fuel n r d fuel' r' d' D H H' Y).
  - exact (vy_binop_record e _ _ fuel n r d fuel' r' d' D H H' Y).
  - exact (vy_binop_record e _ _ fuel n r d fuel' r' d' D H H' Y).
  - exact (vy_binop_record e _ _ fuel n r d fuel' r' d' D H H' Y).
  - exact (vy_binop_record e _ _ fuel n r d fuel' r' d' D H H' Y).
  - exact (vy_assign_record e fuel n r d fuel' r' d' D F H H' Y).
  - exact (vy_delete_record e fuel n r d fuel' r' d' D H H' Y).
  - exact (vy_call_record e fuel n r d fuel' r' d' D H H' Y).
  - exact (vy_if_record e fuel n r d fuel' r' d' D H H' Y).
  - exact (vy_swapargs_record e fuel n r d fuel' r' d' D H H' Y).
  - exact (proj2 (vy_swapop_record e fuel n r d fuel' r' d' H H')).
  - exact (vy_swaplines_record e fuel n r d fuel' r' d' D H H' Y).
  - exact (proj2 (vy_unary_record e fuel n r d fuel' r' d' H H')).
Qed.
