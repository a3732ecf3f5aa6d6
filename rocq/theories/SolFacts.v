(** What each Solidity operator does to a node it accepts. *)
From Coq Require Import String Ascii List NArith ZArith Bool Lia Arith.
From Coq Require Import DecimalString DecimalNat DecimalN DecimalZ.
From Verif Require Import Base Json Rng MutationType Traverse OpCommon SolMutators
  JsonFacts SpecOps OpFacts TraverseFacts.
Import ListNotations.
Open Scope list_scope.
Open Scope string_scope.

Ltac plain := vm_compute; reflexivity.
Ltac inv H := inversion H; subst; clear H.

Lemma ok_inj {A} (a b : A) : Ok a = Ok b -> a = b.
Proof. congruence. Qed.

Lemma is_type_spec t n : is_type t n = true <-> is_sol t n.
Proof.
  unfold is_type, is_sol, has_field. destruct (get_str n "nodeType") as [s|] eqn:E.
  - apply get_str_Some in E; [|plain]. rewrite E. destruct (String.eqb_spec s t); split; congruence.
  - split; [discriminate|]. intros H. apply get_str_Some in H; [|plain]. congruence.
Qed.

Lemma arr_of_spec n k l : arr_of n k = Some l <-> has_field n k (JArr l).
Proof.
  unfold arr_of, has_field. destruct (oget n k) as [v|]; [|split; discriminate].
  destruct v; simpl; split; congruence.
Qed.

(** ** Binary operators *)
Lemma sol_binop_fact e t ops fuel n r d :
  sol_binop_mutable ops n = Ok true -> sol_binop_mutate e t ops fuel n r = Ok d ->
  exists op op', is_sol "BinaryOperation" n /\ has_field n "operator" (JStr op) /\
    In op ops /\ In op' ops /\ op' <> op /\
    field_becomes "operator" (JStr op') n (md_node d) /\
    mr_type (md_result d) = Some t /\
    md_comment d = Some (sol_comment (show_mt t ++ " Mutator: changed '" ++ op ++ "' to '" ++ op' ++ "'")).
Proof.
  unfold sol_binop_mutable, sol_binop_mutate. intros Hm H. apply ok_inj in Hm. rename Hm into H1.
  destruct (is_type "BinaryOperation" n) eqn:Et; [|discriminate]. apply is_type_spec in Et.
  destruct (get_str n "operator") as [op|] eqn:Eo; [|discriminate].
  apply get_str_Some in Eo; [|plain]. ok_inv H.
  apply pick_until_ok in E. destruct E as (Hbad & rr & Hc). apply choose_or_In in Hc.
  exists op, s. split; [exact Et|]. split; [exact Eo|]. split; [now apply smem_In'|].
  split; [exact Hc|]. split; [apply String.eqb_neq in Hbad; congruence|].
  split; [eapply field_set; eauto; plain|]. split; reflexivity.
Qed.

(** ** Unary operators *)
Lemma sol_unary_fact e fuel n r d :
  sol_unary_mutable n = Ok true -> sol_unary_mutate e fuel n r = Ok d ->
  exists p op op', is_sol "UnaryOperation" n /\ has_field n "prefix" (JBool p) /\
    has_field n "operator" (JStr op) /\
    In op (if p then prefix_ops else postfix_ops) /\ In op' (if p then prefix_ops else postfix_ops) /\
    op' <> op /\ field_becomes "operator" (JStr op') n (md_node d).
Proof.
  unfold sol_unary_mutable, sol_unary_mutate. intros Hm H. apply ok_inj in Hm. rename Hm into H1.
  destruct (is_type "UnaryOperation" n) eqn:Et; [|discriminate]. apply is_type_spec in Et.
  destruct (get_bool n "prefix") as [p|] eqn:Ep; [|discriminate]. apply get_bool_Some in Ep; [|plain].
  destruct (get_str n "operator") as [op|] eqn:Eo; [|discriminate]. apply get_str_Some in Eo; [|plain].
  ok_inv H. apply pick_until_ok in E. destruct E as (Hbad & rr & Hc). apply choose_or_In in Hc.
  exists p, op, s. split; [exact Et|]. split; [exact Ep|]. split; [exact Eo|].
  split; [apply smem_In' in H1; destruct p; exact H1|]. split; [destruct p; exact Hc|].
  split; [apply String.eqb_neq in Hbad; congruence|]. eapply field_set; eauto; plain.
Qed.

(** ** Assignment *)
Lemma sol_assign_type_spec n ts : sol_assign_type n = Some ts <-> sol_type_of n ts.
Proof.
  unfold sol_assign_type, sol_type_of, has_field. destruct (oget n "typeDescriptions") as [d|].
  - rewrite get_str_Some by plain. split; [eauto|]. intros (d' & E & H). inv E. exact H.
  - split; [discriminate|]. intros (d' & E & _). discriminate.
Qed.

Lemma parse_show n : parse_digits (show_N n) = Some n.
Proof.
  unfold parse_digits, show_N. rewrite NilZero.usu; [simpl; now rewrite Unsigned.of_to|].
  destruct n; simpl; [discriminate|]. intros H. apply (f_equal N.of_uint) in H.
  change (Pos.to_uint p) with (N.to_uint (N.pos p)) in H. rewrite Unsigned.of_to in H. discriminate.
Qed.

Lemma show_N_digit n : exists c s, show_N n = String c s /\ c <> "+"%char /\ c <> "-"%char.
Proof.
  unfold show_N. destruct (N.to_uint n); simpl; eexists _, _; (split; [reflexivity|split; discriminate]).
Qed.

Lemma parse_unsigned_show bits n : (n < 2 ^ bits)%N -> parse_unsigned bits (show_N n) = Some n.
Proof.
  intros H. unfold parse_unsigned. destruct (show_N_digit n) as (c & s & E & Hc & _).
  rewrite <- (parse_show n) at 1.
  replace (match show_N n with String "+" r => r | _ => show_N n end) with (show_N n).
  - rewrite parse_show. destruct (N.ltb_spec n (2 ^ bits)); [reflexivity|lia].
  - rewrite E. destruct c as [[] [] [] [] [] [] [] []]; try reflexivity. congruence.
Qed.

Lemma sol_number_literal_node z : sol_number_literal z (sol_int_node z).
Proof. repeat split. Qed.
Lemma sol_bool_literal_node b : sol_bool_literal b (sol_bool_node b).
Proof. destruct b; repeat split. Qed.

Lemma sol_assign_value_uint n r v bytes r' :
  (0 < n <= 256)%N -> sol_assign_value ("uint" ++ show_N n) r = Ok (v, bytes, r') ->
  exists z, v = Some (sol_int_node z) /\ (0 <= z <= 2 ^ Z.of_N n - 1)%Z.
Proof.
  intros Hn. unfold sol_assign_value.
  destruct (show_N_digit n) as (c & s & E & Hc & _).
  assert (Hcb : is_cont_byte c = false).
  { unfold show_N in E. destruct (N.to_uint n); simpl in E; inv E; reflexivity. }
  assert (S3 : slice_to 3 ("uint" ++ show_N n) = Ok "uin").
  { unfold slice_to. rewrite E. simpl. reflexivity. }
  assert (S4 : slice_from 4 ("uint" ++ show_N n) = Ok (show_N n)).
  { unfold slice_from. rewrite E. simpl. unfold is_char_boundary. simpl.
    rewrite Hcb. reflexivity. }
  rewrite S3. cbn [bind]. change ("uin" =?s "int") with false. change ("uin" =?s "uin") with true. cbv iota.
  rewrite S4. cbn [bind]. rewrite parse_unsigned_show.
  2:{ change (2 ^ 32)%N with 4294967296%N. lia. }
  intros H. ok_inv H.
  apply gen_range_bounds in E0. eexists. split; [reflexivity|].
  destruct (N.ltb_spec 128 n) as [Hl|Hl].
  - assert (2 ^ Z.of_N 128 <= 2 ^ Z.of_N n)%Z by (apply Z.pow_le_mono_r; lia). lia.
  - lia.
Qed.

Lemma sol_assign_value_int n r v bytes r' :
  (0 < n <= 256)%N -> sol_assign_value ("int" ++ show_N n) r = Ok (v, bytes, r') ->
  exists z, v = Some (sol_int_node z) /\ (- 2 ^ (Z.of_N n - 1) <= z <= 2 ^ (Z.of_N n - 1) - 1)%Z.
Proof.
  intros Hn. unfold sol_assign_value.
  destruct (show_N_digit n) as (c & s & E & Hc & _).
  assert (Hcb : is_cont_byte c = false).
  { unfold show_N in E. destruct (N.to_uint n); simpl in E; inv E; reflexivity. }
  assert (S3 : slice_to 3 ("int" ++ show_N n) = Ok "int").
  { unfold slice_to. rewrite E. simpl. unfold is_char_boundary. simpl. rewrite Hcb. reflexivity. }
  assert (S4 : slice_from 3 ("int" ++ show_N n) = Ok (show_N n)).
  { unfold slice_from. rewrite E. simpl. unfold is_char_boundary. simpl.
    rewrite Hcb. reflexivity. }
  rewrite S3. cbn [bind]. change ("int" =?s "int") with true. cbv iota.
  rewrite S4. cbn [bind]. rewrite parse_unsigned_show.
  2:{ change (2 ^ 32)%N with 4294967296%N. lia. }
  intros H. ok_inv H.
  apply gen_range_bounds in E1. eexists. split; [reflexivity|].
  destruct (N.ltb_spec 128 n) as [Hl|Hl]; [discriminate E0|]. lia.
Qed.

Lemma sol_assign_fact e fuel n r d ts lo hi :
  sol_assign_mutable n = Ok true -> sol_assign_mutate e fuel n r = Ok d ->
  sol_type_of n ts -> sol_int_type ts lo hi ->
  exists z v, (lo <= z <= hi)%Z /\ sol_number_literal z v /\
    field_becomes "rightHandSide" v n (md_node d).
Proof.
  unfold sol_assign_mutate. intros _ H Hts Hty. apply sol_assign_type_spec in Hts. rewrite Hts in H.
  ok_inv H.
  assert (G : exists z, o = Some (sol_int_node z) /\ (lo <= z <= hi)%Z).
  { destruct Hty as [k Hk|k Hk].
    - eapply sol_assign_value_uint in E1; eauto.
    - eapply sol_assign_value_int in E1; eauto. }
  destruct G as (z & -> & Hz). exists z, (sol_int_node z). split; [exact Hz|].
  split; [apply sol_number_literal_node|]. eapply field_set; [plain|exact E].
Qed.

(** Whatever the type: only the right hand side changes, and it becomes a
    number or a boolean. *)
Lemma sol_assign_only e fuel n r d :
  sol_assign_mutable n = Ok true -> sol_assign_mutate e fuel n r = Ok d ->
  exists v, field_becomes "rightHandSide" v n (md_node d) /\
    ((exists z, sol_number_literal z v) \/ (exists b, sol_bool_literal b v /\ sol_type_of n "bool")).
Proof.
  unfold sol_assign_mutable, sol_assign_mutate. intros Hm H.
  destruct (is_type "Assignment" n); [|discriminate].
  destruct (sol_assign_type n) as [ts|] eqn:Ets; [|discriminate].
  destruct (N.ltb (slen ts) 3); [discriminate|].
  destruct (slice_to 3 ts) as [pre| | |] eqn:Epre; cbn [bind] in Hm; try discriminate.
  ok_inv H. unfold sol_assign_value in E1. rewrite Epre in E1. cbn [bind] in E1.
  destruct (pre =?s "int") eqn:F3.
  { ok_inv E1. eexists. split; [eapply field_set; [plain|exact E]|]. left. eexists. apply sol_number_literal_node. }
  destruct (pre =?s "uin") eqn:F4.
  { ok_inv E1. eexists. split; [eapply field_set; [plain|exact E]|]. left. eexists. apply sol_number_literal_node. }
  destruct (pre =?s "boo") eqn:F5.
  { ok_inv E1. eexists. split; [eapply field_set; [plain|exact E]|]. right. eexists. split; [apply sol_bool_literal_node|].
    apply sol_assign_type_spec. rewrite Ets. f_equal. now apply String.eqb_eq. }
  exfalso. apply ok_inj in Hm. rename Hm into H0. apply String.eqb_neq in F3, F4, F5. apply smem_In' in H0. simpl in H0. intuition congruence.
Qed.

(** ** Delete statement *)
Lemma indexes_from_spec {A} (f : A -> bool) l i k :
  In k (indexes_from i f l) -> i <= k /\ exists x, nth_error l (k - i) = Some x /\ f x = true.
Proof.
  revert i; induction l as [|x l IH]; intros i; simpl; [tauto|].
  destruct (f x) eqn:E.
  - intros [->|H].
    + split; [lia|]. rewrite Nat.sub_diag. simpl. eauto.
    + destruct (IH _ H) as (A1 & y & A2 & A3). split; [lia|]. exists y.
      replace (k - i)%nat with (S (k - S i)) by lia. auto.
  - intros H. destruct (IH _ H) as (A1 & y & A2 & A3). split; [lia|]. exists y.
    replace (k - i)%nat with (S (k - S i)) by lia. auto.
Qed.

Lemma take_arr n k v n0 : plain_key k = true -> take_key n k = Some (v, n0) -> has_field n k v.
Proof. intros Hk H. exact (proj1 (take_set n k JNull v n0 Hk H)). Qed.

Lemma sol_comment_node_spec x : sol_commented x (sol_comment_node x).
Proof.
  unfold sol_comment_node, sol_commented, is_sol, has_field. split.
  - rewrite oget_set_key_other by (plain || discriminate). rewrite oget_set_key_other by (plain || discriminate). reflexivity.
  - rewrite oget_set_key_other by (plain || discriminate). apply oget_set_key_same; [plain|reflexivity].
Qed.

Lemma sol_delete_fact e fuel n r d :
  sol_delete_mutable n = Ok true -> sol_delete_mutate e fuel n r = Ok d ->
  exists l l' i x c, is_sol "Block" n /\ has_field n "statements" (JArr l) /\
    nth_error l i = Some x /\ is_sol "ExpressionStatement" x /\ sol_commented x c /\
    slot_becomes i c l l' /\ field_becomes "statements" (JArr l') n (md_node d).
Proof.
  unfold sol_delete_mutable, sol_delete_mutate. intros Hm H. apply ok_inj in Hm. rename Hm into H1.
  destruct (is_type "Block" n) eqn:Et; [|discriminate]. apply is_type_spec in Et. clear H1.
  destruct (take_key n "statements") as [[v n0]|] eqn:Ek; [|discriminate].
  destruct v as [| | | |l|]; try discriminate. ok_inv H.
  apply vec_get_ok in E0. apply vec_get_ok in E1.
  assert (Hi : In a (indexes (fun v => is_object v && is_type "ExpressionStatement" v)%bool l))
    by (eapply nth_error_In; eauto).
  apply indexes_from_spec in Hi. destruct Hi as (_ & y & Hy & Hf). rewrite Nat.sub_0_r in Hy.
  rewrite E1 in Hy. injection Hy as <-. apply andb_prop in Hf. destruct Hf as (_ & Hf).
  exists l, (vec_put a (sol_comment_node a0) l), a, a0, (sol_comment_node a0).
  split; [exact Et|]. split; [eapply take_arr; eauto; plain|]. split; [exact E1|].
  split; [now apply is_type_spec|]. split; [apply sol_comment_node_spec|].
  split; [apply slot_vec_put; apply nth_error_Some; congruence|].
  eapply field_take_set; eauto; plain.
Qed.

(** ** Function call *)
Lemma sol_call_fact e fuel n r d :
  sol_call_mutable n = Ok true -> sol_call_mutate e fuel n r = Ok d ->
  exists l, is_sol "FunctionCall" n /\ has_field n "arguments" (JArr l) /\
    In (md_node d) l /\ ~ is_sol "Literal" (md_node d).
Proof.
  unfold sol_call_mutable, sol_call_mutate. intros Hm H. apply ok_inj in Hm. rename Hm into H1.
  destruct (is_type "FunctionCall" n) eqn:Et; [|discriminate]. apply is_type_spec in Et.
  destruct (arr_of n "arguments") as [l|] eqn:El; [|discriminate]. apply arr_of_spec in El. ok_inv H.
  apply vec_get_ok in E1. apply pick_until_ok in E0. destruct E0 as (Hb & _).
  exists l. split; [exact Et|]. split; [exact El|]. simpl. split; [eapply nth_error_In; eauto|].
  unfold type_at in Hb. rewrite E1 in Hb. intros Hl. apply is_type_spec in Hl. congruence.
Qed.

(** ** If *)
Lemma sol_negation_node c : sol_negation c (sol_unary_node "!" true (sol_tuple_node [c])).
Proof.
  unfold sol_unary_node, sol_negation, is_sol, has_field.
  rewrite !oget_set_key_other by (plain || discriminate).
  split; [reflexivity|]. split; [reflexivity|]. split; [reflexivity|].
  exists (sol_tuple_node [c]). split; [apply oget_set_key_same; [plain|reflexivity]|].
  unfold sol_tuple_node. split; [rewrite oget_set_key_other by (plain || discriminate); reflexivity|].
  apply oget_set_key_same; [plain|reflexivity].
Qed.

Lemma sol_if_fact e fuel n r d :
  sol_if_mutable n = Ok true -> sol_if_mutate e fuel n r = Ok d ->
  exists c c', is_sol "IfStatement" n /\ has_field n "condition" c /\
    (sol_bool_literal true c' \/ sol_bool_literal false c' \/ sol_negation c c') /\
    field_becomes "condition" c' n (md_node d).
Proof.
  unfold sol_if_mutable, sol_if_mutate. intros Hm H. apply ok_inj in Hm. rename Hm into H1.
  destruct (is_type "IfStatement" n) eqn:Et; [|discriminate]. apply is_type_spec in Et.
  destruct (oget n "condition") as [c|] eqn:Ec; [|discriminate]. clear H1. ok_inv H.
  destruct n0 as [|[p|p|]].
  - exists c, (sol_bool_node true). split; [exact Et|]. split; [exact Ec|]. split; [left; apply sol_bool_literal_node|].
    simpl. eapply field_set; [plain|exact Ec].
  - exists c, (sol_unary_node "!" true (sol_tuple_node [c])). split; [exact Et|]. split; [exact Ec|].
    split; [right; right; apply sol_negation_node|]. simpl md_node.
    destruct (take_key n "condition") as [[c0 n0]|] eqn:Ek.
    + assert (c0 = c) by (pose proof (take_arr n "condition" c0 n0 eq_refl Ek) as X; unfold has_field in X; congruence).
      subst c0. eapply field_take_set; [plain|exact Ek].
    + exfalso. rewrite take_key_plain in Ek by plain. apply oget_object in Ec. destruct Ec as (o & -> & Ho).
      rewrite Ho in Ek. discriminate.
  - exists c, (sol_unary_node "!" true (sol_tuple_node [c])). split; [exact Et|]. split; [exact Ec|].
    split; [right; right; apply sol_negation_node|]. simpl md_node.
    destruct (take_key n "condition") as [[c0 n0]|] eqn:Ek.
    + assert (c0 = c) by (pose proof (take_arr n "condition" c0 n0 eq_refl Ek) as X; unfold has_field in X; congruence).
      subst c0. eapply field_take_set; [plain|exact Ek].
    + exfalso. rewrite take_key_plain in Ek by plain. apply oget_object in Ec. destruct Ec as (o & -> & Ho).
      rewrite Ho in Ek. discriminate.
  - exists c, (sol_bool_node false). split; [exact Et|]. split; [exact Ec|].
    split; [right; left; apply sol_bool_literal_node|].
    simpl. eapply field_set; [plain|exact Ec].
Qed.

(** ** Integer *)
Lemma i64_add_diff oc a b z : in_i64 a = true -> i64_add oc a b = Ok z -> (b = 1 \/ b = -1)%Z -> z <> a.
Proof.
  unfold in_i64, i64_add. intros Ha H Hb. apply andb_prop in Ha. destruct Ha as (A1 & A2).
  apply Z.leb_le in A1. apply Z.ltb_lt in A2.
  destruct (in_i64 (a + b)); [inv H; lia|]. destruct oc; [discriminate|]. inv H.
  intros Heq. destruct Hb as [->| ->].
  - destruct (Z.eq_dec a 9223372036854775807) as [->|Hne].
    + revert Heq. vm_compute. discriminate.
    + rewrite Z.mod_small in Heq; lia.
  - destruct (Z.eq_dec a (-9223372036854775808)) as [->|Hne].
    + revert Heq. vm_compute. discriminate.
    + rewrite Z.mod_small in Heq; lia.
Qed.

Lemma parse_i64_range s z : parse_i64 s = Some z -> in_i64 z = true.
Proof.
  unfold parse_i64.
  assert (P : forall s', match parse_digits s' with
      | Some n => if (n <? 2 ^ 63)%N then Some (Z.of_N n) else None | None => None end = Some z -> in_i64 z = true).
  { intros s'. destruct (parse_digits s') as [k|]; [|discriminate].
    change (2 ^ 63)%N with 9223372036854775808%N.
    destruct (N.ltb_spec k 9223372036854775808); [|discriminate]. intros X; inv X.
    unfold in_i64. apply andb_true_intro. split; [apply Z.leb_le|apply Z.ltb_lt]; lia. }
  assert (Q : forall s', match parse_digits s' with
      | Some n => if (n <=? 2 ^ 63)%N then Some (- Z.of_N n)%Z else None | None => None end = Some z -> in_i64 z = true).
  { intros s'. destruct (parse_digits s') as [k|]; [|discriminate].
    change (2 ^ 63)%N with 9223372036854775808%N.
    destruct (N.leb_spec k 9223372036854775808); [|discriminate]. intros X; inv X.
    unfold in_i64. apply andb_true_intro. split; [apply Z.leb_le|apply Z.ltb_lt]; lia. }
  destruct s as [|c s]; [apply P|]. destruct c as [[] [] [] [] [] [] [] []]; try (apply P); apply Q.
Qed.

Lemma sol_int_fact e fuel n r d :
  sol_int_mutable n = Ok true -> sol_int_mutate e fuel n r = Ok d ->
  exists old new, is_sol "Literal" n /\ has_field n "kind" (JStr "number") /\
    has_field n "value" (JStr old) /\ field_becomes "value" (JStr new) n (md_node d) /\
    ((exists z z', parse_i64 old = Some z /\ new = show_Z z' /\ z' <> z) \/ (exists k, new = show_N k)).
Proof.
  unfold sol_int_mutable, sol_int_mutate. intros Hm H. apply ok_inj in Hm. rename Hm into H1.
  destruct (is_type "Literal" n) eqn:Et; [|discriminate]. apply is_type_spec in Et.
  destruct (get_str n "kind") as [kd|] eqn:Ek; [|discriminate]. apply get_str_Some in Ek; [|plain].
  destruct (String.eqb_spec kd "number") as [->|]; [|discriminate].
  destruct (get_str n "value") as [v|] eqn:Ev; [|discriminate]. pose proof Ev as Ev0.
  apply get_str_Some in Ev; [|plain]. clear H1.
  destruct (next_mod 3 r) as [[k r1]| | |] eqn:En; cbn [bind] in H; try discriminate.
  apply next_mod_lt in En.
  assert (Hsh : forall dd v', (dd = 1 \/ dd = -1)%Z -> sol_int_shift (e_oc e) v dd = Ok v' ->
     exists z z', parse_i64 v = Some z /\ v' = show_Z z' /\ z' <> z).
  { intros dd v' Hd Hs. unfold sol_int_shift in Hs. destruct (parse_i64 v) as [z|] eqn:Ez; [|discriminate].
    ok_inv Hs. exists z, a. repeat split. eapply i64_add_diff; eauto. eapply parse_i64_range; eauto. }
  assert (Hk : k = 0%N \/ k = 1%N \/ k = 2%N) by lia.
  destruct Hk as [->|[->| ->]].
  - change (N.eqb 0 0) with true in H. cbv iota in H. ok_inv H. ok_inv E.
    eexists _, _. split; [exact Et|]. split; [exact Ek|]. split; [exact Ev|].
    split; [eapply field_set; [plain|exact Ev]|]. left. eapply Hsh; [|eassumption]. now left.
  - change (N.eqb 1 0) with false in H. cbv iota in H. ok_inv H. ok_inv E.
    eexists _, _. split; [exact Et|]. split; [exact Ek|]. split; [exact Ev|].
    split; [eapply field_set; [plain|exact Ev]|]. left. eapply Hsh; [|eassumption]. now right.
  - destruct (next_u64 r1) as [dr r2]. ok_inv H. ok_inv E.
    eexists _, (show_N dr). split; [exact Et|]. split; [exact Ek|]. split; [exact Ev|].
    split; [eapply field_set; [plain|exact Ev]|]. right. eauto.
Qed.

(** ** Swap operator arguments *)
Lemma two_fields n ka kb a b n0 n1 :
  plain_key ka = true -> plain_key kb = true -> ka <> kb ->
  take_key n ka = Some (a, n0) -> take_key n0 kb = Some (b, n1) ->
  oget n ka = Some a /\ oget n kb = Some b /\
  set_key (set_key n1 ka b) kb a = set_key (set_key n ka b) kb a.
Proof.
  intros Pa Pb Hne. rewrite !take_key_plain by assumption. destruct n as [| | | | |o]; try discriminate.
  destruct (assoc ka o) as [x|] eqn:Ea; [|discriminate]. intros H; inv H.
  rewrite assoc_obj_set_other by congruence. destruct (assoc kb o) as [y|] eqn:Eb; [|discriminate].
  intros H; inv H. split; [exact Ea|]. split; [exact Eb|].
  rewrite (set_key_plain _ ka) by exact Pa.
  assert (E1 : assoc ka (obj_set kb JNull (obj_set ka JNull o)) = Some JNull).
  { rewrite assoc_obj_set_other by congruence. eapply assoc_obj_set_same; eauto. }
  rewrite E1. rewrite (set_key_plain (JObj o) ka) by exact Pa. rewrite Ea.
  rewrite !(set_key_plain _ kb) by exact Pb.
  assert (E2 : assoc kb (obj_set ka b (obj_set kb JNull (obj_set ka JNull o))) = Some JNull).
  { rewrite assoc_obj_set_other by congruence. eapply assoc_obj_set_same.
    rewrite assoc_obj_set_other by congruence. exact Eb. }
  rewrite E2. rewrite (assoc_obj_set_other ka) by congruence. rewrite Eb.
  f_equal. rewrite (obj_set_comm ka kb) by congruence. rewrite obj_set_twice.
  rewrite obj_set_twice. reflexivity.
Qed.

Lemma set_two n ka kb a b va vb :
  plain_key ka = true -> plain_key kb = true -> ka <> kb ->
  oget n ka = Some va -> oget n kb = Some vb ->
  two_fields_become ka a kb b n (set_key (set_key n ka a) kb b).
Proof.
  intros Pa Pb Hne Ha Hb. apply oget_object in Ha. destruct Ha as (o & -> & Ha). simpl in Hb.
  rewrite (set_key_plain (JObj o) ka) by exact Pa. rewrite Ha.
  rewrite set_key_plain by exact Pb. rewrite assoc_obj_set_other by congruence. rewrite Hb.
  exists o, (obj_set kb b (obj_set ka a o)). repeat split; auto.
  - now rewrite !keys_obj_set.
  - rewrite assoc_obj_set_other by congruence. eapply assoc_obj_set_same; eauto.
  - eapply assoc_obj_set_same. rewrite assoc_obj_set_other by congruence. exact Hb.
  - intros k H1 H2. rewrite !assoc_obj_set_other by congruence. reflexivity.
Qed.

Lemma sol_swapop_fact e fuel n r d :
  sol_swapop_mutable n = Ok true -> sol_swapop_mutate e fuel n r = Ok d ->
  exists op a b, is_sol "BinaryOperation" n /\ has_field n "operator" (JStr op) /\
    In op non_commutative_operators /\
    has_field n "leftExpression" a /\ has_field n "rightExpression" b /\
    two_fields_become "leftExpression" b "rightExpression" a n (md_node d).
Proof.
  unfold sol_swapop_mutable, sol_swapop_mutate. intros Hm H. apply ok_inj in Hm. rename Hm into H1.
  destruct (is_type "BinaryOperation" n) eqn:Et; [|discriminate]. apply is_type_spec in Et.
  destruct (get_str n "operator") as [op|] eqn:Eo; [|discriminate]. apply get_str_Some in Eo; [|plain].
  destruct (take_key n "leftExpression") as [[a n0]|] eqn:Ea; [|discriminate].
  destruct (take_key n0 "rightExpression") as [[b n1]|] eqn:Eb; [|discriminate]. ok_inv H.
  destruct (two_fields n "leftExpression" "rightExpression" a b n0 n1) as (Ha & Hb & Heq);
    [plain|plain|discriminate|exact Ea|exact Eb|].
  exists op, a, b. split; [exact Et|]. split; [exact Eo|]. split; [now apply smem_In'|].
  split; [exact Ha|]. split; [exact Hb|]. simpl. rewrite Heq. eapply set_two; eauto; try plain. discriminate.
Qed.

(** ** Swap lines *)
Lemma sol_swaplines_fact e fuel n r d :
  sol_swaplines_mutable n = Ok true -> sol_swaplines_mutate e fuel n r = Ok d ->
  exists l l' i j, is_sol "Block" n /\ has_field n "statements" (JArr l) /\
    exchanged i j l l' /\
    (forall x, nth_error l i = Some x \/ nth_error l j = Some x -> ~ is_sol "Return" x) /\
    field_becomes "statements" (JArr l') n (md_node d).
Proof.
  unfold sol_swaplines_mutable, sol_swaplines_mutate. intros Hm H. apply ok_inj in Hm. rename Hm into H1.
  destruct (is_type "Block" n) eqn:Et; [|discriminate]. apply is_type_spec in Et. clear H1.
  destruct (take_key n "statements") as [[v n0]|] eqn:Ek; [|discriminate].
  destruct v as [| | | |l|]; try discriminate. ok_inv H.
  apply pick_until_ok in E. destruct E as (Hi & ri & Hi2). apply random_index_lt in Hi2.
  apply pick_until_ok in E0. destruct E0 as (Hj & rj & Hj2). apply random_index_lt in Hj2.
  destruct (Nat.eqb_spec n2 n1) as [|Hne]; [discriminate|].
  exists l, l0, n1, n2. split; [exact Et|]. split; [eapply take_arr; eauto; plain|].
  split; [eapply vec_swap_exchanged; eauto|]. split.
  - intros x [Hx|Hx] Habs; apply is_type_spec in Habs.
    + unfold type_at in Hi. rewrite Hx in Hi. congruence.
    + unfold type_at in Hj. rewrite Hx in Hj. congruence.
  - eapply field_take_set; eauto; plain.
Qed.

(** ** Require *)
Lemma sol_require_negation c : sol_negation c (sol_require_node c).
Proof.
  unfold sol_negation, is_sol, has_field. repeat split.
  eexists. split; [reflexivity|]. split; reflexivity.
Qed.

Lemma set_key_at_plain n k i v : plain_key k = true ->
  set_key_at n k i v = match n with
                       | JObj o => match assoc k o with
                                   | Some (JArr l) => JObj (obj_set k (JArr (replace_at i v l)) o)
                                   | _ => n
                                   end
                       | _ => n
                       end.
Proof.
  intros H. unfold set_key_at. rewrite ptr_upd_plain by exact H. destruct n; try reflexivity.
  destruct (assoc k o) as [w|] eqn:E; [|reflexivity]. destruct w; try (now rewrite obj_set_self); reflexivity.
Qed.

Lemma sol_require_fact e fuel n r d :
  sol_require_mutable n = Ok true -> sol_require_mutate e fuel n r = Ok d ->
  exists arg rest f c', is_sol "FunctionCall" n /\ has_field n "expression" f /\
    has_field f "name" (JStr "require") /\ has_field n "arguments" (JArr (arg :: rest)) /\
    sol_negation arg c' /\ field_becomes "arguments" (JArr (c' :: rest)) n (md_node d).
Proof.
  unfold sol_require_mutable, sol_require_mutate. intros Hm H. apply ok_inj in Hm. rename Hm into H1.
  apply andb_prop in H1. destruct H1 as (H1 & _). apply andb_prop in H1. destruct H1 as (Et & Hf).
  apply is_type_spec in Et.
  destruct (oget n "expression") as [f|] eqn:Ef; [|discriminate].
  destruct (get_str f "name") as [s|] eqn:Es; [|discriminate]. apply get_str_Some in Es; [|plain].
  apply String.eqb_eq in Hf. subst s.
  destruct (arr_of n "arguments") as [[|arg rest]|] eqn:El; try discriminate. apply arr_of_spec in El. ok_inv H.
  exists arg, rest, f, (sol_require_node arg). split; [exact Et|]. split; [exact Ef|]. split; [exact Es|].
  split; [exact El|]. split; [apply sol_require_negation|]. simpl.
  unfold has_field in El. apply oget_object in El. destruct El as (o & -> & Ho).
  rewrite (set_key_at_plain (JObj o)) by plain. rewrite Ho. rewrite set_key_at_plain by plain.
  rewrite (assoc_obj_set_same _ _ _ _ Ho). simpl. rewrite obj_set_twice.
  exists o. eexists. split; [reflexivity|]. split; [reflexivity|]. split; [apply keys_obj_set|].
  split; [eapply assoc_In_keys; eauto|]. split; [eapply assoc_obj_set_same; eauto|].
  intros k' Hk. now apply assoc_obj_set_other.
Qed.

(** ** Unchecked block *)
Lemma sol_unchecked_node_spec x id : sol_unchecked_of x (sol_unchecked_node [x] id).
Proof.
  unfold sol_unchecked_node, sol_unchecked_of, is_sol, has_field. split.
  - rewrite !oget_set_key_other by (plain || discriminate). reflexivity.
  - rewrite oget_set_key_other by (plain || discriminate). apply oget_set_key_same; [plain|reflexivity].
Qed.

Lemma sol_unchecked_fact e fuel n r d :
  sol_unchecked_mutable n = Ok true -> sol_unchecked_mutate e fuel n r = Ok d ->
  exists l l' i x u, is_sol "Block" n /\ has_field n "statements" (JArr l) /\
    nth_error l i = Some x /\ ~ is_sol "Return" x /\ ~ is_sol "UncheckedBlock" x /\
    sol_unchecked_of x u /\ slot_becomes i u l l' /\
    field_becomes "statements" (JArr l') n (md_node d).
Proof.
  unfold sol_unchecked_mutable, sol_unchecked_mutate. intros Hm H. apply ok_inj in Hm. rename Hm into H1.
  destruct (is_type "Block" n) eqn:Et; [|discriminate]. apply is_type_spec in Et. clear H1.
  destruct (take_key n "statements") as [[v n0]|] eqn:Ek; [|discriminate].
  destruct v as [| | | |l|]; try discriminate. ok_inv H.
  apply pick_until_ok in E. destruct E as (Hi & ri & Hi2). apply random_index_lt in Hi2.
  apply vec_get_ok in E0. unfold type_at in Hi. rewrite E0 in Hi. apply orb_false_elim in Hi. destruct Hi as (Ha & Hb).
  eexists l, _, n1, _, _. split; [exact Et|]. split; [eapply take_arr; eauto; plain|].
  split; [exact E0|]. split; [intros X; apply is_type_spec in X; congruence|].
  split; [intros X; apply is_type_spec in X; congruence|].
  split; [|split].
  - apply sol_unchecked_node_spec.
  - apply slot_vec_put. exact Hi2.
  - eapply field_take_set; eauto; plain.
Qed.

(** ** Delegate call *)
Lemma sol_delegate_fact e fuel n r d :
  sol_delegate_mutable n = Ok true -> sol_delegate_mutate e fuel n r = Ok d ->
  is_sol "MemberAccess" n /\ has_field n "memberName" (JStr "delegatecall") /\
  field_becomes "memberName" (JStr "call") n (md_node d).
Proof.
  unfold sol_delegate_mutable, sol_delegate_mutate. intros Hm H. apply ok_inj in Hm. rename Hm into H1.
  destruct (is_type "MemberAccess" n) eqn:Et; [|discriminate]. apply is_type_spec in Et.
  destruct (get_str n "memberName") as [s|] eqn:Es; [|discriminate]. apply get_str_Some in Es; [|plain].
  apply String.eqb_eq in H1. subst s. inv H. split; [exact Et|]. split; [exact Es|].
  eapply field_set; [plain|exact Es].
Qed.

(** ** Swap function arguments *)
Lemma NoDup_app_single {A} (l : list A) x : NoDup l -> ~ In x l -> NoDup (List.app l [x]).
Proof.
  induction 1 as [|y l Hy Hl IH]; simpl; intros Hx; [constructor; [tauto|constructor]|].
  constructor; [|apply IH; tauto]. intros Hin. apply in_app_or in Hin. simpl in Hin. intuition congruence.
Qed.

Lemma exchanged_replace {A} i j (x y : A) l :
  i <> j -> nth_error l i = Some x -> nth_error l j = Some y ->
  exchanged i j l (replace_at j x (replace_at i y l)).
Proof.
  intros Hij Hi Hj.
  assert (Li : i < length l) by (apply nth_error_Some; congruence).
  assert (Lj : j < length l) by (apply nth_error_Some; congruence).
  repeat split; auto.
  - now rewrite !length_replace_at.
  - rewrite nth_error_replace_at_neq by congruence. rewrite nth_error_replace_at_eq by exact Li. congruence.
  - rewrite nth_error_replace_at_eq by (rewrite length_replace_at; exact Lj). congruence.
  - intros k H1 H2. rewrite !nth_error_replace_at_neq by congruence. reflexivity.
Qed.

Definition group_ok (l : list json) (b : nat) (kg : string * list (nat * json)) : Prop :=
  Forall (fun iv => nth_error l (fst iv) = Some (snd iv) /\ arg_type (snd iv) = Some (fst kg) /\ fst iv < b) (snd kg)
  /\ NoDup (map fst (snd kg)).

Lemma group_ok_mono l b b' kg : b <= b' -> group_ok l b kg -> group_ok l b' kg.
Proof.
  intros Hb (H1 & H2). split; [|exact H2]. eapply Forall_impl; [|exact H1].
  intros iv (A1 & A2 & A3). repeat split; auto. lia.
Qed.

Lemma group_add_ok l i v t g :
  nth_error l i = Some v -> arg_type v = Some t ->
  Forall (group_ok l i) g -> Forall (group_ok l (S i)) (group_add t (i, v) g).
Proof.
  intros Hv Ht. induction 1 as [|[k x] g Hk Hg IH]; simpl.
  - constructor; [|constructor]. split; simpl.
    + constructor; [|constructor]. simpl. auto.
    + constructor; [simpl; tauto|constructor].
  - assert (Hg' : Forall (group_ok l (S i)) g).
    { eapply Forall_impl; [|exact Hg]. intros kg. apply group_ok_mono. lia. }
    destruct (String.eqb_spec t k) as [->|Hne].
    + constructor; [|exact Hg']. destruct Hk as (A1 & A2). split; simpl in *.
      * apply Forall_app. split.
        -- eapply Forall_impl; [|exact A1]. intros iv (B1 & B2 & B3). repeat split; auto.
        -- constructor; [|constructor]. simpl. auto.
      * rewrite map_app. simpl. apply NoDup_app_single; [exact A2|].
        intros Hin. apply in_map_iff in Hin. destruct Hin as (iv & E & Hin).
        rewrite Forall_forall in A1. destruct (A1 iv Hin) as (_ & _ & B3). lia.
    + constructor; [eapply group_ok_mono; [|exact Hk]; lia|exact IH].
Qed.

Lemma arg_groups_ok l : exists b, Forall (group_ok l b) (arg_groups l).
Proof.
  exists (length l). unfold arg_groups.
  assert (G : forall rest pre g, l = List.app pre rest -> Forall (group_ok l (length pre)) g ->
     Forall (group_ok l (length l)) (arg_groups_from (length pre) rest g)).
  { induction rest as [|v rest IH]; intros pre g Hl Hg; simpl.
    - rewrite Hl, app_nil_r. subst l. rewrite app_nil_r in Hg. exact Hg.
    - specialize (IH (List.app pre [v])). rewrite app_length in IH. simpl in IH.
      rewrite Nat.add_1_r in IH. apply IH; [now rewrite <- app_assoc|].
      destruct (arg_type v) as [t|] eqn:Et.
      + apply group_add_ok; auto. rewrite Hl. rewrite nth_error_app2 by lia. now rewrite Nat.sub_diag.
      + eapply Forall_impl; [|exact Hg]. intros kg. apply group_ok_mono. lia. }
  apply (G l [] []); [reflexivity|constructor].
Qed.

Lemma arg_type_spec v t : arg_type v = Some t <-> sol_type_of v t.
Proof. exact (sol_assign_type_spec v t). Qed.

Lemma assoc_In {A} k (o : list (string * A)) v : assoc k o = Some v -> In (k, v) o.
Proof.
  induction o as [|[k' x] o IH]; simpl; [discriminate|].
  destruct (String.eqb_spec k k'); [left; congruence|right; auto].
Qed.

Lemma sol_swapargs_fact e fuel n r d :
  sol_swapargs_mutable n = Ok true -> sol_swapargs_mutate e fuel n r = Ok d ->
  exists l l' i j x y t, is_sol "FunctionCall" n /\ has_field n "arguments" (JArr l) /\
    nth_error l i = Some x /\ nth_error l j = Some y /\ sol_type_of x t /\ sol_type_of y t /\
    exchanged i j l l' /\ field_becomes "arguments" (JArr l') n (md_node d).
Proof.
  unfold sol_swapargs_mutable, sol_swapargs_mutate. intros Hm H. apply ok_inj in Hm.
  destruct (is_type "FunctionCall" n) eqn:Et; [|discriminate]. apply is_type_spec in Et. clear Hm.
  destruct (take_key n "arguments") as [[v n0]|] eqn:Ek; [|discriminate].
  destruct v as [| | | |l|]; try discriminate.
  destruct (random_index _ r) as [[k r1]| | |] eqn:Er; cbn [bind] in H; try discriminate.
  destruct (vec_get _ k) as [g| | |] eqn:Eg; cbn [bind] in H; try discriminate.
  destruct (vec_get g 0) as [[i x]| | |] eqn:E1; cbn [bind] in H; try discriminate.
  destruct (vec_get g 1) as [[j y]| | |] eqn:E2; cbn [bind] in H; try discriminate.
  destruct (e_pp e x) as [s1| | |]; cbn [bind] in H; try discriminate.
  destruct (e_pp e y) as [s2| | |]; cbn [bind] in H; try discriminate.
  apply ok_inj in H. subst d.
  apply vec_get_ok in Eg, E1, E2. apply nth_error_In in Eg. unfold big_groups in Eg.
  apply in_flat_map in Eg. destruct Eg as (key & _ & Hg).
  destruct (assoc key (arg_groups l)) as [g'|] eqn:Ea; [|destruct Hg].
  destruct (Nat.leb 2 (length g')); [|destruct Hg]. destruct Hg as [->|[]].
  apply assoc_In in Ea. destruct (arg_groups_ok l) as (b & Hok). rewrite Forall_forall in Hok.
  destruct (Hok _ Ea) as (Hall & Hnd). simpl in Hall, Hnd. rewrite Forall_forall in Hall.
  destruct (Hall _ (nth_error_In _ _ E1)) as (A1 & A2 & _).
  destruct (Hall _ (nth_error_In _ _ E2)) as (B1 & B2 & _). simpl in *.
  assert (Hij : i <> j).
  { destruct g as [|p [|q g]]; try discriminate. simpl in E1, E2. injection E1 as ->. injection E2 as ->.
    simpl in Hnd. inversion Hnd as [|? ? Hn _]. simpl in Hn. intros ->. tauto. }
  assert (Li : i < length l) by (apply nth_error_Some; congruence).
  assert (Lj : j < length l) by (apply nth_error_Some; congruence).
  exists l, (replace_at j x (replace_at i y l)), i, j, x, y, key.
  split; [exact Et|]. split; [eapply take_arr; eauto; plain|]. split; [exact A1|]. split; [exact B1|].
  split; [now apply arg_type_spec|]. split; [now apply arg_type_spec|].
  split; [now apply exchanged_replace|].
  rewrite (vec_put_replace i) by exact Li. rewrite vec_put_replace by (rewrite length_replace_at; exact Lj).
  eapply field_take_set; eauto; plain.
Qed.
