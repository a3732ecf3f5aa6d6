(** What each Vyper operator does to a node it accepts. *)
From Coq Require Import String Ascii List NArith ZArith Bool Lia Arith.
From Verif Require Import Base Json Rng MutationType Traverse OpCommon VyMutators
  JsonFacts SpecOps OpFacts TraverseFacts SolFacts.
Import ListNotations.
Open Scope list_scope.
Open Scope string_scope.

Lemma is_ast_spec t n : is_ast t n = true <-> is_vy t n.
Proof.
  unfold is_ast, is_vy, has_field. destruct (get_str n "ast_type") as [s|] eqn:E.
  - apply get_str_Some in E; [|plain]. rewrite E. destruct (String.eqb_spec s t); split; congruence.
  - split; [discriminate|]. intros H. apply get_str_Some in H; [|plain]. congruence.
Qed.

Lemma is_ast_in_spec ts n : is_ast_in ts n = true <-> exists t, In t ts /\ is_vy t n.
Proof.
  unfold is_ast_in, is_vy, has_field. destruct (get_str n "ast_type") as [s|] eqn:E.
  - apply get_str_Some in E; [|plain]. rewrite smem_In'. split.
    + intros H. eauto.
    + intros (t & H & H'). congruence.
  - split; [discriminate|]. intros (t & _ & H). apply get_str_Some in H; [|plain]. congruence.
Qed.

Lemma varr_of_spec n k l : varr_of n k = Some l <-> has_field n k (JArr l).
Proof. exact (arr_of_spec n k l). Qed.

Lemma op_type_spec n t : op_type n = Some t <-> exists o, has_field n "op" o /\ is_vy t o.
Proof.
  unfold op_type, has_field, is_vy, has_field. destruct (oget n "op") as [o|].
  - rewrite get_str_Some by plain. split; [eauto|]. intros (o' & E & H). congruence.
  - split; [discriminate|]. intros (o & E & _). discriminate.
Qed.

(** ** Binary operators *)
Definition ops_class (ops class : list string) : Prop :=
  forall t s, assoc t python_operators = Some s -> In s ops -> In t class.

Lemma python_cases t s : assoc t python_operators = Some s -> In (t, s) python_operators.
Proof. apply assoc_In. Qed.

Lemma reverse_python c t : assoc c reverse_operators = Some t -> assoc t python_operators = Some c.
Proof.
  intros H. apply assoc_In in H. simpl in H.
  repeat (destruct H as [H|H]; [injection H as <- <-; reflexivity|]). destruct H.
Qed.

Lemma class_by_cases ops class :
  forallb (fun kv => implb (smem (snd kv) ops) (smem (fst kv) class)) python_operators = true ->
  ops_class ops class.
Proof.
  intros H t s Ha Hin. apply python_cases in Ha. rewrite forallb_forall in H. specialize (H _ Ha). simpl in H.
  apply smem_In' in Hin. rewrite Hin in H. now apply smem_In'.
Qed.

Lemma vy_binop_fact e t ops class fuel n r d :
  ops_class ops class ->
  vy_binop_mutable ops n = Ok true -> vy_binop_mutate e t ops fuel n r = Ok d ->
  exists op op' old new,
    (is_vy "BinOp" n \/ is_vy "BoolOp" n \/ is_vy "Compare" n) /\
    has_field n "op" op /\ is_vy old op /\ In old class /\ In new class /\ new <> old /\
    field_becomes "ast_type" (JStr new) op op' /\ field_becomes "op" op' n (md_node d).
Proof.
  intros Hcl. unfold vy_binop_mutable, vy_binop_mutate. intros Hm H. apply ok_inj in Hm.
  destruct (is_ast_in _ n) eqn:Et; [|discriminate].
  destruct (op_type n) as [ot|] eqn:Eo; [|discriminate].
  destruct (assoc ot python_operators) as [orig|] eqn:Ea; [|discriminate]. apply smem_In' in Hm.
  apply op_type_spec in Eo. destruct Eo as (op & Hop & Hot).
  destruct (take_key n "op") as [[op1 n0]|] eqn:Ek; [|discriminate].
  assert (op1 = op).
  { pose proof (take_arr n "op" op1 n0 eq_refl Ek) as X. unfold has_field in *. congruence. } subst op1.
  destruct (get_str op "ast_type") as [ot1|] eqn:E1; [|discriminate].
  assert (ot1 = ot) by (apply get_str_Some in E1; [|plain]; unfold is_vy, has_field in Hot; congruence). subst ot1.
  destruct (e_pp e n) as [s| | |]; cbn [bind] in H; try discriminate. rewrite Ea in H.
  destruct (pick_until _ _ _ r) as [[c r1]| | |] eqn:Ep; cbn [bind] in H; try discriminate.
  destruct (assoc c reverse_operators) as [vop|] eqn:Er; [|discriminate]. apply reverse_python in Er.
  destruct (e_pp e _) as [s2| | |]; cbn [bind] in H; try discriminate. apply ok_inj in H. subst d.
  apply pick_until_ok in Ep. destruct Ep as (Hb & rr & Hc). apply choose_or_In in Hc.
  exists op, (set_str op "ast_type" vop), ot, vop. split.
  { apply is_ast_in_spec in Et. destruct Et as (tt & Hin & Htt). simpl in Hin.
    destruct Hin as [<-|[<-|[<-|[]]]]; auto. }
  split; [exact Hop|]. split; [exact Hot|]. split; [eapply Hcl; eauto|]. split; [eapply Hcl; eauto|].
  split; [intros ->; apply String.eqb_neq in Hb; congruence|].
  split; [eapply field_set; [plain|exact Hot]|]. eapply field_take_set; [plain|exact Ek].
Qed.

(** ** Assignment *)
Lemma vy_assign_fact e fuel n r d :
  vy_assign_mutable n = Ok true -> vy_assign_mutate e fuel n r = Ok d ->
  exists v, is_vy "Assign" n /\ field_becomes "value" v n (md_node d) /\
    (is_vy "Int" v \/ is_vy "NameConstant" v \/ is_vy "Decimal" v).
Proof.
  unfold vy_assign_mutable, vy_assign_mutate. intros Hm H. apply ok_inj in Hm. apply is_ast_spec in Hm.
  destruct (oget n "value") as [v|] eqn:Ev; [|discriminate].
  destruct (e_pp e v) as [s| | |]; cbn [bind] in H; try discriminate.
  destruct (vy_assign_value e r) as [[[v' bytes] r1]| | |] eqn:Ea; cbn [bind] in H; try discriminate.
  destruct (oget (set_key n "value" v') "value"); [|discriminate].
  destruct (e_pp e _) as [s2| | |]; cbn [bind] in H; try discriminate. apply ok_inj in H. subst d.
  exists v'. split; [exact Hm|]. split; [eapply field_set; [plain|exact Ev]|].
  unfold vy_assign_value in Ea. destruct (next_mod 4 r) as [[k r2]| | |]; cbn [bind] in Ea; try discriminate.
  destruct k as [|[k|[k|k|]|]].
  - destruct (gen_range _ _ r2) as [[z r3]| | |]; cbn [bind] in Ea; try discriminate.
    injection Ea as <- _ _. left. unfold vy_int_node. reflexivity.
  - destruct (draw r2) as [dd r3]. injection Ea as <- _ _. right. right. reflexivity.
  - destruct (draw r2) as [dd r3]. injection Ea as <- _ _. right. right. reflexivity.
  - destruct (draw r2) as [dd r3]. injection Ea as <- _ _. right. right. reflexivity.
  - destruct (next_mod 2 r2) as [[z r3]| | |]; cbn [bind] in Ea; try discriminate.
    injection Ea as <- _ _. right. left. reflexivity.
  - destruct (gen_range _ _ r2) as [[z r3]| | |]; cbn [bind] in Ea; try discriminate.
    injection Ea as <- _ _. left. unfold vy_int_node. reflexivity.
Qed.

(** ** Delete statement *)
Lemma vy_comment_node_spec x : vy_commented x (vy_comment_node x).
Proof.
  unfold vy_comment_node, vy_commented, is_vy, has_field. split.
  - rewrite !oget_set_key_other by (plain || discriminate). reflexivity.
  - rewrite oget_set_key_other by (plain || discriminate). apply oget_set_key_same; [plain|reflexivity].
Qed.

Lemma vy_return_spec v : is_vy "Return" (vy_return_node v).
Proof.
  unfold vy_return_node, is_vy, has_field. rewrite oget_set_key_other by (plain || discriminate). reflexivity.
Qed.

Lemma vy_filler_spec n r more bytes r' :
  vy_delete_filler n r = Ok (more, bytes, r') ->
  more = [] \/ exists m, more = [m] /\ (is_vy "Pass" m \/ is_vy "Return" m).
Proof.
  unfold vy_delete_filler. intros H. ok_inv H; auto; right; eexists; (split; [reflexivity|]);
    (left; reflexivity) || (right; apply vy_return_spec).
Qed.

Lemma vy_delete_fact e fuel n r d :
  vy_delete_mutable e n = Ok true -> vy_delete_mutate e fuel n r = Ok d ->
  exists l l1 more i x c,
    (is_vy "FunctionDef" n \/ is_vy "For" n \/ is_vy "If" n \/ is_vy "Module" n) /\
    has_field n "body" (JArr l) /\ nth_error l i = Some x /\ vy_commented x c /\
    slot_becomes i c l l1 /\ field_becomes "body" (JArr (List.app l1 more)) n (md_node d) /\
    (1 < length l -> more = []) /\
    (more = [] \/ exists m, more = [m] /\ (is_vy "Pass" m \/ is_vy "Return" m)).
Proof.
  unfold vy_delete_mutable, vy_delete_mutate. intros Hm H.
  destruct (is_ast_in _ n) eqn:Et; [|discriminate]. clear Hm.
  destruct (take_key n "body") as [[v n0]|] eqn:Ek; [|discriminate].
  destruct v as [| | | |l|]; try discriminate.
  destruct (random_index _ r) as [[i r1]| | |] eqn:Er; cbn [bind] in H; try discriminate.
  destruct (vec_get l i) as [x| | |] eqn:Ex; cbn [bind] in H; try discriminate.
  apply vec_get_ok in Ex. apply random_index_lt in Er.
  destruct (if Nat.eqb _ 1 then _ else _) as [[[l2 bytes] r2]| | |] eqn:Ef; cbn [bind] in H; try discriminate.
  apply ok_inj in H. subst d.
  assert (Hty : is_vy "FunctionDef" n \/ is_vy "For" n \/ is_vy "If" n \/ is_vy "Module" n).
  { apply is_ast_in_spec in Et. destruct Et as (tt & Hin & Htt). simpl in Hin.
    destruct Hin as [<-|[<-|[<-|[<-|[]]]]]; auto. }
  pose proof (slot_vec_put i (vy_comment_node x) l Er) as Hs.
  pose proof (proj1 (proj2 Hs)) as Hlen.
  destruct (Nat.eqb_spec (length (vec_put i (vy_comment_node x) l)) 1) as [H1|H1].
  - destruct (vy_delete_filler n0 r1) as [[[more b'] r3]| | |] eqn:Efi; cbn [bind] in Ef; try discriminate.
    injection Ef as <- _ _. exists l, (vec_put i (vy_comment_node x) l), more, i, x, (vy_comment_node x).
    split; [exact Hty|]. split; [eapply take_arr; eauto; plain|]. split; [exact Ex|].
    split; [apply vy_comment_node_spec|]. split; [exact Hs|].
    split; [eapply field_take_set; [plain|exact Ek]|]. split; [lia|]. eapply vy_filler_spec; eauto.
  - injection Ef as <- _ _. exists l, (vec_put i (vy_comment_node x) l), [], i, x, (vy_comment_node x).
    split; [exact Hty|]. split; [eapply take_arr; eauto; plain|]. split; [exact Ex|].
    split; [apply vy_comment_node_spec|]. split; [exact Hs|]. rewrite app_nil_r.
    split; [eapply field_take_set; [plain|exact Ek]|]. auto.
Qed.

(** ** Function call *)
Lemma vy_call_fact e fuel n r d :
  vy_call_mutable n = Ok true -> vy_call_mutate e fuel n r = Ok d ->
  exists l, is_vy "Call" n /\ has_field n "args" (JArr l) /\ In (md_node d) l.
Proof.
  unfold vy_call_mutable, vy_call_mutate. intros Hm H. apply ok_inj in Hm.
  destruct (is_ast "Call" n) eqn:Et; [|discriminate]. apply is_ast_spec in Et.
  destruct (varr_of n "args") as [l|] eqn:El; [|discriminate]. apply varr_of_spec in El.
  destruct (pick_until _ _ _ r) as [[i r1]| | |] eqn:Ep; cbn [bind] in H; try discriminate.
  destruct (vec_get l i) as [x| | |] eqn:Ex; cbn [bind] in H; try discriminate.
  destruct (e_pp e n) as [s1| | |]; cbn [bind] in H; try discriminate.
  destruct (e_pp e x) as [s2| | |]; cbn [bind] in H; try discriminate. apply ok_inj in H. subst d.
  apply vec_get_ok in Ex. exists l. split; [exact Et|]. split; [exact El|]. eapply nth_error_In; eauto.
Qed.

(** ** Swap function arguments *)
Lemma vy_swapargs_fact e fuel n r d :
  vy_swapargs_mutable n = Ok true -> vy_swapargs_mutate e fuel n r = Ok d ->
  exists l l' i j, is_vy "Call" n /\ has_field n "args" (JArr l) /\
    exchanged i j l l' /\ field_becomes "args" (JArr l') n (md_node d).
Proof.
  unfold vy_swapargs_mutable, vy_swapargs_mutate. intros Hm H. apply ok_inj in Hm.
  destruct (is_ast "Call" n) eqn:Et; [|discriminate]. apply is_ast_spec in Et.
  destruct (varr_of n "args") as [l|] eqn:El; [|discriminate]. apply varr_of_spec in El.
  apply Nat.leb_le in Hm.
  destruct (take_key n "args") as [[v n0]|] eqn:Ek; [|discriminate].
  assert (v = JArr l) by (pose proof (take_arr n "args" v n0 eq_refl Ek) as X; unfold has_field in *; congruence).
  subst v.
  assert (Hfin : forall i j bytes r' d0, i <> j ->
    (let? a1 := vec_get l i in
      let? a2 := vec_get l j in
      let? s1 := e_pp e a1 in
      let? s2 := e_pp e a2 in
      let n'' := set_key n0 "args" (JArr (replace_at j a1 (replace_at i a2 l))) in
      Ok (done (Generic SwapFunctionArguments) n'' (vy_id n'') (Some (hash e bytes))
            (vy_comment ("SwapFunctionArguments Mutator: swapped '" ++ s1 ++ "', for '" ++ s2 ++ "'")) r')) = Ok d0 ->
    exists l' i j, exchanged i j l l' /\ field_becomes "args" (JArr l') n (md_node d0)).
  { intros i j bytes r' d0 Hij Hf.
    destruct (vec_get l i) as [x| | |] eqn:Ex; cbn [bind] in Hf; try discriminate.
    destruct (vec_get l j) as [y| | |] eqn:Ey; cbn [bind] in Hf; try discriminate.
    destruct (e_pp e x) as [s1| | |]; cbn [bind] in Hf; try discriminate.
    destruct (e_pp e y) as [s2| | |]; cbn [bind] in Hf; try discriminate.
    cbv zeta in Hf. apply ok_inj in Hf. subst d0. apply vec_get_ok in Ex, Ey.
    exists (replace_at j x (replace_at i y l)), i, j. split; [now apply exchanged_replace|].
    eapply field_take_set; [plain|exact Ek]. }
  assert (G : exists l' i j, exchanged i j l l' /\ field_becomes "args" (JArr l') n (md_node d)).
  { destruct (length l) as [|[|[|m]]] eqn:Elen; try lia.
    - eapply (Hfin 0 1); [discriminate|exact H].
    - destruct (random_index _ r) as [[i r1]| | |] eqn:Er; cbn [bind] in H; try discriminate.
      destruct (pick_until _ _ _ r1) as [[j r2]| | |] eqn:Ep; cbn [bind] in H; try discriminate.
      apply pick_until_ok in Ep. destruct Ep as (Hb & _). apply Nat.eqb_neq in Hb.
      eapply (Hfin i j); [exact Hb|exact H]. }
  destruct G as (l' & i & j & G1 & G2). exists l, l', i, j. auto.
Qed.

(** ** If *)
Lemma vy_bool_constant_node b : vy_bool_constant b (vy_bool_node b).
Proof. split; reflexivity. Qed.

Lemma vy_negation_node c : vy_negation c (vy_unary_node "Not" c).
Proof.
  unfold vy_unary_node, vy_negation, is_vy, has_field.
  split; [rewrite oget_set_key_other by (plain || discriminate); reflexivity|].
  split; [apply oget_set_key_same; [plain|reflexivity]|].
  eexists. split; [rewrite oget_set_key_other by (plain || discriminate); reflexivity|]. reflexivity.
Qed.

Lemma vy_if_fact e fuel n r d :
  vy_if_mutable n = Ok true -> vy_if_mutate e fuel n r = Ok d ->
  exists c c', is_vy "If" n /\ has_field n "test" c /\
    (vy_bool_constant true c' \/ vy_bool_constant false c' \/ vy_negation c c') /\
    field_becomes "test" c' n (md_node d).
Proof.
  unfold vy_if_mutable, vy_if_mutate. intros Hm H. apply ok_inj in Hm.
  destruct (is_ast "If" n) eqn:Et; [|discriminate]. apply is_ast_spec in Et.
  destruct (oget n "test") as [c|] eqn:Ec; [|discriminate]. clear Hm.
  destruct (e_pp e c) as [s1| | |]; cbn [bind] in H; try discriminate.
  destruct (next_mod 3 r) as [[k r1]| | |]; cbn [bind] in H; try discriminate.
  destruct (take_key n "test") as [[c0 n0]|] eqn:Ek.
  2:{ exfalso. rewrite take_key_plain in Ek by plain. apply oget_object in Ec. destruct Ec as (o & -> & Ho).
      rewrite Ho in Ek. discriminate. }
  assert (c0 = c) by (pose proof (take_arr n "test" c0 n0 eq_refl Ek) as X; unfold has_field in X; congruence).
  subst c0. exists c.
  destruct k as [|[p|p|]].
  1: destruct (e_pp e (vy_bool_node true)) as [s2| | |]; cbn [bind] in H; try discriminate.
  2,3: destruct (e_pp e (vy_unary_node "Not" c)) as [s2| | |]; cbn [bind] in H; try discriminate.
  4: destruct (e_pp e (vy_bool_node false)) as [s2| | |]; cbn [bind] in H; try discriminate.
  all: apply ok_inj in H; subst d; eexists; split; [exact Et|]; split; [exact Ec|];
    (split; [| (eapply field_set; [plain|exact Ec]) || (eapply field_take_set; [plain|exact Ek])]).
  - left. apply vy_bool_constant_node.
  - right. right. apply vy_negation_node.
  - right. right. apply vy_negation_node.
  - right. left. apply vy_bool_constant_node.
Qed.

(** ** Integer *)
Lemma in_i64_spec z : in_i64 z = true <-> (-9223372036854775808 <= z < 9223372036854775808)%Z.
Proof. unfold in_i64. rewrite andb_true_iff, Z.leb_le, Z.ltb_lt. reflexivity. Qed.

Lemma as_i64_jint z : in_i64 z = true -> as_i64 (jint z) = Some z.
Proof.
  intros H. pose proof (proj1 (in_i64_spec z) H). unfold jint.
  destruct (Z.ltb_spec z 0); simpl.
  - reflexivity.
  - destruct (N.ltb_spec (Z.to_N z) 9223372036854775808); [f_equal; lia|lia].
Qed.

Lemma i64_add_in oc a b z : i64_add oc a b = Ok z -> in_i64 z = true.
Proof.
  unfold i64_add. destruct (in_i64 (a + b)) eqn:E; [intros H; injection H as <-; exact E|].
  destruct oc; [discriminate|]. intros H. injection H as <-. apply in_i64_spec.
  pose proof (Z.mod_pos_bound (a + b + 9223372036854775808) 18446744073709551616). lia.
Qed.

Lemma u64_as_i64_in k : (k < 18446744073709551616)%N -> in_i64 (u64_as_i64 k) = true.
Proof.
  intros H. apply in_i64_spec. unfold u64_as_i64. destruct (N.ltb_spec k 9223372036854775808); lia.
Qed.

Lemma vy_int_fact e fuel n r d z :
  vy_int_mutable n = Ok true -> vy_int_mutate e fuel n r = Ok d ->
  has_field n "value" (jint z) -> in_i64 z = true ->
  exists z' k, is_vy "Int" n /\ in_i64 z' = true /\ field_becomes "value" (jint z') n (md_node d) /\
    (z' <> z \/ (z' = u64_as_i64 k /\ (k < 18446744073709551616)%N)).
Proof.
  unfold vy_int_mutable, vy_int_mutate. intros Hm H Hv Hz. apply ok_inj in Hm. apply is_ast_spec in Hm.
  destruct (e_pp e n) as [s1| | |]; cbn [bind] in H; try discriminate.
  destruct (next_mod 3 r) as [[k r1]| | |] eqn:En; cbn [bind] in H; try discriminate.
  assert (Hr : forall n' r2, match k with
    | 2%N => let (d, r2) := next_u64 r1 in Ok (set_key n "value" (jint (u64_as_i64 d)), r2)
    | _ =>
        match oget n "value" with
        | Some v =>
            match as_i64 v with
            | Some z => let? z' := i64_add (e_oc e) z (if N.eqb k 0 then 1 else -1)%Z in
                        Ok (set_key n "value" (jint z'), r1)
            | None => Ok (n, r1)
            end
        | None => Ok (n, r1)
        end
    end = Ok (n', r2) ->
    exists z' k, in_i64 z' = true /\ n' = set_key n "value" (jint z') /\
      (z' <> z \/ (z' = u64_as_i64 k /\ (k < 18446744073709551616)%N))).
  { intros n' r2. unfold has_field in Hv. rewrite Hv. rewrite (as_i64_jint z Hz).
    assert (Hs : forall dd, (dd = 1 \/ dd = -1)%Z ->
       (let? z' := i64_add (e_oc e) z dd in Ok (set_key n "value" (jint z'), r1)) = Ok (n', r2) ->
       exists z' k, in_i64 z' = true /\ n' = set_key n "value" (jint z') /\
      (z' <> z \/ (z' = u64_as_i64 k /\ (k < 18446744073709551616)%N))).
    { intros dd Hd Hx. destruct (i64_add (e_oc e) z dd) as [z'| | |] eqn:Ei; cbn [bind] in Hx; try discriminate.
      injection Hx as <- _. exists z', 0%N. split; [eapply i64_add_in; eauto|]. split; [reflexivity|].
      left. eapply i64_add_diff; eauto. }
    destruct k as [|[p|[p|p|]|]].
    - apply Hs. now left.
    - apply Hs. now right.
    - apply Hs. now right.
    - apply Hs. now right.
    - destruct (next_u64 r1) as [dd r3] eqn:Ed. intros Hx. injection Hx as <- _.
      unfold next_u64 in Ed. destruct (draw r1) as [d0 r4]. injection Ed as <- _.
      assert (Hlt : (d0 mod 18446744073709551616 < 18446744073709551616)%N) by (apply N.mod_lt; discriminate).
      exists (u64_as_i64 (d0 mod 18446744073709551616)), (d0 mod 18446744073709551616)%N.
      split; [now apply u64_as_i64_in|]. split; [reflexivity|]. right. auto.
    - apply Hs. now right. }
  destruct (match k with 2%N => _ | _ => _ end) as [[n' r2]| | |] eqn:Em; cbn [bind] in H; try discriminate.
  destruct (e_pp e n') as [s2| | |]; cbn [bind] in H; try discriminate. apply ok_inj in H. subst d.
  destruct (Hr _ _ eq_refl) as (z' & k' & A1 & A2 & A3). subst n'.
  exists z', k'. split; [exact Hm|]. split; [exact A1|]. split; [eapply field_set; [plain|exact Hv]|exact A3].
Qed.

(** ** Swap operator arguments *)
Lemma vy_swapop_fact e fuel n r d a b :
  vy_swapop_mutable n = Ok true -> vy_swapop_mutate e fuel n r = Ok d ->
  has_field n "left" a -> has_field n "right" b -> ~ is_vy "BoolOp" n ->
  (is_vy "BinOp" n \/ is_vy "Compare" n) /\
  two_fields_become "left" b "right" a n (md_node d).
Proof.
  unfold vy_swapop_mutable, vy_swapop_mutate. intros Hm H Ha Hb Hnb.
  destruct (is_ast_in _ n) eqn:Et; [|discriminate]. clear Hm.
  apply is_ast_in_spec in Et. destruct Et as (t & Hin & Ht).
  pose proof Ht as Ht'. unfold is_vy, has_field in Ht'. apply get_str_Some in Ht'; [|plain]. rewrite Ht' in H.
  assert (Htt : t = "BinOp" \/ t = "Compare").
  { simpl in Hin. destruct Hin as [<-|[<-|[<-|[]]]]; auto. tauto. }
  assert (Hsm : smem t ["BinOp"; "Compare"] = true) by (destruct Htt as [->| ->]; reflexivity).
  unfold vy_swapop_edit in H. rewrite Hsm in H.
  destruct (take_key n "left") as [[a' n0]|] eqn:E1.
  2:{ exfalso. unfold has_field in Ha. rewrite take_key_plain in E1 by plain.
      apply oget_object in Ha. destruct Ha as (o & -> & Ho). rewrite Ho in E1. discriminate. }
  destruct (take_key n0 "right") as [[b' n1]|] eqn:E2.
  2:{ exfalso. unfold has_field in Hb. rewrite take_key_plain in E2 by plain.
      rewrite <- (take_other n "left" "right" a' n0) in Hb; [|plain|exact E1|discriminate].
      apply oget_object in Hb. destruct Hb as (o & -> & Ho). rewrite Ho in E2. discriminate. }
  destruct (e_pp e a') as [s1| | |]; cbn [bind] in H; try discriminate.
  destruct (e_pp e b') as [s2| | |]; cbn [bind] in H; try discriminate. apply ok_inj in H. subst d.
  destruct (two_fields n "left" "right" a' b' n0 n1) as (Ha' & Hb' & Heq);
    [plain|plain|discriminate|exact E1|exact E2|].
  unfold has_field in Ha, Hb. rewrite Ha in Ha'. rewrite Hb in Hb'. injection Ha' as <-. injection Hb' as <-.
  split; [destruct Htt as [->| ->]; auto|]. simpl md_node. rewrite Heq.
  eapply set_two; eauto; try plain. discriminate.
Qed.

(** ** Swap lines *)
Lemma vy_swaplines_fact e fuel n r d :
  vy_swaplines_mutable n = Ok true -> vy_swaplines_mutate e fuel n r = Ok d ->
  exists l l' i j, (is_vy "FunctionDef" n \/ is_vy "For" n \/ is_vy "If" n) /\
    has_field n "body" (JArr l) /\ exchanged i j l l' /\
    (forall x, nth_error l i = Some x \/ nth_error l j = Some x -> ~ is_vy "Return" x) /\
    field_becomes "body" (JArr l') n (md_node d).
Proof.
  unfold vy_swaplines_mutable, vy_swaplines_mutate. intros Hm H. apply ok_inj in Hm.
  destruct (is_ast_in _ n) eqn:Et; [|discriminate]. clear Hm.
  destruct (take_key n "body") as [[v n0]|] eqn:Ek; [|discriminate].
  destruct v as [| | | |l|]; try discriminate.
  destruct (pick_until _ _ _ r) as [[i r1]| | |] eqn:Ei; cbn [bind] in H; try discriminate.
  destruct (pick_until _ _ _ r1) as [[j r2]| | |] eqn:Ej; cbn [bind] in H; try discriminate.
  destruct (vec_swap i j l) as [[[l' x] y]| | |] eqn:Es; cbn [bind] in H; try discriminate.
  destruct (e_pp e x) as [s1| | |]; cbn [bind] in H; try discriminate.
  destruct (e_pp e y) as [s2| | |]; cbn [bind] in H; try discriminate. apply ok_inj in H. subst d.
  apply pick_until_ok in Ei. destruct Ei as (Hi & ri & Hi2). apply random_index_lt in Hi2.
  apply pick_until_ok in Ej. destruct Ej as (Hj & rj & Hj2). apply random_index_lt in Hj2.
  destruct (Nat.eqb_spec j i) as [|Hne]; [discriminate|].
  exists l, l', i, j. split.
  { apply is_ast_in_spec in Et. destruct Et as (tt & Hin & Htt). simpl in Hin.
    destruct Hin as [<-|[<-|[<-|[]]]]; auto. }
  split; [eapply take_arr; eauto; plain|]. split; [eapply vec_swap_exchanged; eauto|]. split.
  - intros z [Hx|Hx] Habs; apply is_ast_spec in Habs.
    + unfold ast_at in Hi. rewrite Hx in Hi. congruence.
    + unfold ast_at in Hj. rewrite Hx in Hj. congruence.
  - eapply field_take_set; eauto; plain.
Qed.

(** ** Unary *)
Lemma vy_unary_fact e fuel n r d :
  vy_unary_mutable n = Ok true -> vy_unary_mutate e fuel n r = Ok d ->
  is_vy "UnaryOp" n /\ has_field n "operand" (md_node d).
Proof.
  unfold vy_unary_mutable, vy_unary_mutate. intros Hm H. apply ok_inj in Hm. apply is_ast_spec in Hm.
  destruct (e_pp e n) as [s1| | |]; cbn [bind] in H; try discriminate.
  destruct (take_key n "operand") as [[x n0]|] eqn:Ek; [|discriminate].
  destruct (e_pp e x) as [s2| | |]; cbn [bind] in H; try discriminate. apply ok_inj in H. subst d.
  split; [exact Hm|]. eapply take_arr; eauto; plain.
Qed.
