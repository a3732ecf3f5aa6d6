(** The Vyper half of [OpTotal]. *)
From Coq Require Import String Ascii List NArith ZArith Bool Lia Arith.
From Verif Require Import Base Json Rng MutationType Traverse OpCommon SolMutators VyMutators
  JsonFacts SpecOps SpecTotal OpFacts TraverseFacts SolFacts VyFacts OpTotal.
Import ListNotations.
Open Scope list_scope.
Open Scope string_scope.

Lemma vy_binop_works e t ops n s p :
  printer_total e ->
  (exists a b, In a ops /\ In b ops /\ a <> b) -> (N.of_nat (length ops) <= 2 ^ 64)%N ->
  (forall c, In c ops -> exists v, assoc c reverse_operators = Some v) ->
  fair (at_pos s 0) -> vy_binop_mutable ops n = Ok true -> works (vy_binop e t ops) n (at_pos s p).
Proof.
  intros Hpp Hab Hlen Hrev Hf Hm. unfold works, vy_binop, vy_binop_mutable, vy_binop_mutate in *. cbn [mu_mutate].
  apply ok_inj in Hm. destruct (is_ast_in _ n); [|discriminate].
  destruct (op_type n) as [ot|] eqn:Eo; [|discriminate]. apply op_type_spec in Eo. destruct Eo as (op & Hop & Hot).
  destruct (assoc ot python_operators) as [orig|] eqn:Ea; [|discriminate].
  destruct (take_present n "op" op) as (n0 & Hk); [plain|exact Hop|]. rewrite Hk.
  assert (Hg : get_str op "ast_type" = Some ot) by (apply get_str_Some; [plain|exact Hot]). rewrite Hg.
  destruct (Hpp n) as (s1 & ->). cbn [bind]. rewrite Ea.
  destruct (alternative ops orig Hab) as (i & y & Hi & Hy).
  destruct (pick_choice_ends s p "RandomOperationFailure: failed to choose operator" "" ops
     (fun c => orig =?s c) i y Hf Hi Hy Hlen) as (F & k & c & Hc & _ & HF).
  destruct (Hrev c Hc) as (vop & Hv).
  destruct (Hpp (set_key n0 "op" (set_str op "ast_type" vop))) as (s2 & Hs2).
  exists F. eexists. intros fuel Hfu. rewrite (HF fuel Hfu). cbn [bind]. rewrite Hv. rewrite Hs2. reflexivity.
Qed.

Lemma vy_assign_works e n s p :
  printer_total e -> vy_schema n -> vy_assign_mutable n = Ok true -> works0 (vy_assign e) n (at_pos s p).
Proof.
  intros Hpp Hsc Hm. unfold works0, vy_assign, vy_assign_mutable, vy_assign_mutate in *. cbn [mu_mutate].
  apply ok_inj in Hm. apply is_ast_spec in Hm. destruct Hsc as (_ & Hv & _). destruct (Hv Hm) as (v & Hv').
  unfold has_field in Hv'. rewrite Hv'. destruct (Hpp v) as (s1 & ->). cbn [bind].
  assert (Ha : exists v' b r', vy_assign_value e (at_pos s p) = Ok (v', b, r')).
  { unfold vy_assign_value. rewrite next_mod_at by lia. cbn [bind].
    destruct ((s p mod 2 ^ 64) mod 4)%N as [|[q|[q|q|]|]].
    - rewrite gen_range_at by lia. cbn [bind]. eauto.
    - cbn. eauto.
    - cbn. eauto.
    - cbn. eauto.
    - rewrite next_mod_at by lia. cbn [bind]. eauto.
    - rewrite gen_range_at by lia. cbn [bind]. eauto. }
  destruct Ha as (v' & b & r' & ->). cbn [bind].
  assert (Hg : oget (set_key n "value" v') "value" = Some v').
  { apply oget_set_key_same; [plain|]. apply oget_object in Hv'. destruct Hv' as (o & -> & _). reflexivity. }
  rewrite Hg. destruct (Hpp v') as (s2 & ->). cbn [bind]. eexists. reflexivity.
Qed.

Lemma slice3 pre rest :
  String.length pre = 3 -> (forall c rest', rest = String c rest' -> is_cont_byte c = false) ->
  slice_to 3 (pre ++ rest) = Ok pre.
Proof.
  intros Hl Hc. unfold slice_to.
  destruct pre as [|a [|b [|c [|d pre]]]]; try discriminate Hl. simpl.
  unfold is_char_boundary. simpl. destruct rest as [|x rest]; simpl; [reflexivity|].
  rewrite (Hc x rest eq_refl). reflexivity.
Qed.

Lemma vy_filler_total n s p x n0 :
  vy_supported (Generic DeleteStatement) n -> has_field n "body" (JArr [x]) ->
  take_key n "body" = Some (JArr [x], n0) ->
  exists more b r', vy_delete_filler n0 (at_pos s p) = Ok (more, b, r').
Proof.
  intros Hsup Hb Hk. unfold vy_delete_filler.
  rewrite (take_other n "body" "returns" (JArr [x]) n0); [|plain|exact Hk|discriminate].
  destruct (oget n "returns") as [ret|] eqn:Er; [|eauto].
  destruct (get_str ret "ast_type") as [t|] eqn:Et; [|eauto].
  destruct (String.eqb_spec t "Name") as [->|Hn].
  - destruct (get_str ret "id") as [id|] eqn:Eid; [|eauto].
    apply get_str_Some in Et; [|plain]. apply get_str_Some in Eid; [|plain].
    destruct (Hsup x ret id Hb Er Et Eid) as (pre & Hin & rest & -> & Hc).
    simpl in Hin. destruct Hin as [<-|[<-|[<-|[<-|[]]]]]; rewrite slice3 by (reflexivity || exact Hc); cbn [bind].
    + change ("boo" =?s "boo") with true. cbv iota. rewrite next_mod_at by lia. cbn [bind]. eauto.
    + change ("uin" =?s "boo") with false. change ("uin" =?s "uin") with true. cbv iota.
      rewrite next_mod_at by lia. cbn [bind]. eauto.
    + change ("int" =?s "boo") with false. change ("int" =?s "uin") with false. change ("int" =?s "int") with true.
      cbv iota. cbn. eauto.
    + change ("str" =?s "boo") with false. change ("str" =?s "uin") with false. change ("str" =?s "int") with false.
      change ("str" =?s "str") with true. cbv iota. eauto.
  - destruct (t =?s "Pass"); [eauto|]. destruct ((t =?s "Tuple") || (t =?s "List"))%bool; [|eauto].
    destruct (varr_of ret "elements"); eauto.
Qed.

Lemma vy_delete_works e n s p :
  printer_total e -> vy_supported (Generic DeleteStatement) n ->
  vy_delete_mutable e n = Ok true -> works0 (vy_delete e) n (at_pos s p).
Proof.
  intros Hpp Hsup Hm. unfold works0, vy_delete, vy_delete_mutable, vy_delete_mutate in *. cbn [mu_mutate].
  destruct (is_ast_in _ n); [|discriminate].
  destruct (varr_of n "body") as [l|] eqn:El; [|discriminate]. apply varr_of_spec in El.
  assert (Hl : 0 < length l) by (destruct l; [discriminate|simpl; lia]). clear Hm.
  destruct (take_present n "body" (JArr l)) as (n0 & Hk); [plain|exact El|]. rewrite Hk.
  rewrite random_index_at by exact Hl. cbn [bind].
  assert (Hi : idx s (length l) p < length l).
  { unfold idx. pose proof (N.mod_lt (s p mod 2 ^ 64) (N.of_nat (length l))). lia. }
  destruct (vec_get_lt l _ Hi) as (x & -> & _). cbn [bind].
  pose proof (slot_vec_put (idx s (length l) p) (vy_comment_node x) l Hi) as (_ & Hlen & _).
  destruct (Nat.eqb_spec (length (vec_put (idx s (length l) p) (vy_comment_node x) l)) 1) as [H1|H1].
  - rewrite Hlen in H1. destruct l as [|y [|z l]]; simpl in Hl, H1; [lia| |lia].
    destruct (vy_filler_total n s (S p) y n0 Hsup El Hk) as (more & b & r' & ->). cbn [bind].
    eexists. reflexivity.
  - eexists. reflexivity.
Qed.

Lemma vy_call_works e n s p :
  printer_total e -> vy_schema n -> fair (at_pos s 0) ->
  vy_call_mutable n = Ok true -> works (vy_call e) n (at_pos s p).
Proof.
  intros Hpp Hsc Hf Hm. unfold works, vy_call, vy_call_mutable, vy_call_mutate in *. cbn [mu_mutate].
  apply ok_inj in Hm. destruct (is_ast "Call" n); [|discriminate].
  destruct (varr_of n "args") as [l|] eqn:El; [|discriminate]. apply varr_of_spec in El.
  assert (Hl : 0 < length l) by (destruct l; [discriminate|simpl; lia]). clear Hm.
  destruct Hsc as (Hsh & _ & _ & Hno).
  destruct (pick_index_ends s p (length l) (vy_call_bad l) 0 Hf) as (F & k & Hk & _ & HF).
  - exact Hl.
  - exact (Hsh _ _ El).
  - unfold vy_call_bad. destruct (nth_error l 0) as [x|] eqn:Ex; [|reflexivity].
    destruct (get_str x "nodeType") as [t|] eqn:Et; [|reflexivity]. apply get_str_Some in Et; [|plain].
    exfalso. eapply Hno; [exact El|eapply nth_error_In; exact Ex|exact Et].
  - destruct (vec_get_lt l _ Hk) as (y & Ey & _). destruct (Hpp y) as (s2 & Hs2). destruct (Hpp n) as (s1 & Hs1).
    exists F. eexists. intros fuel Hfu. rewrite (HF fuel Hfu). cbn [bind]. rewrite Ey. cbn [bind]. rewrite Hs1.
    cbn [bind]. rewrite Hs2. reflexivity.
Qed.

Lemma vy_swapargs_works e n s p :
  printer_total e -> short_arrays n -> fair (at_pos s 0) ->
  vy_swapargs_mutable n = Ok true -> works (vy_swapargs e) n (at_pos s p).
Proof.
  intros Hpp Hsh Hf Hm. unfold works, vy_swapargs, vy_swapargs_mutable, vy_swapargs_mutate in *. cbn [mu_mutate].
  apply ok_inj in Hm. destruct (is_ast "Call" n); [|discriminate].
  destruct (varr_of n "args") as [l|] eqn:El; [|discriminate]. apply varr_of_spec in El. apply Nat.leb_le in Hm.
  destruct (take_present n "args" (JArr l)) as (n0 & Hk); [plain|exact El|]. rewrite Hk.
  destruct (length l) as [|[|[|m]]] eqn:Elen; try lia.
  - destruct l as [|a [|b [|c l]]]; try discriminate Elen. cbn [vec_get nth_error bind].
    destruct (Hpp a) as (s1 & ->). destruct (Hpp b) as (s2 & ->). cbn [bind]. exists 0. eexists. reflexivity.
  - rewrite random_index_at by lia. cbn [bind]. rewrite <- Elen.
    assert (Hi : idx s (length l) p < length l).
    { unfold idx. pose proof (N.mod_lt (s p mod 2 ^ 64) (N.of_nat (length l))). lia. }
    set (i := idx s (length l) p) in *.
    assert (Hj : exists j, j < length l /\ Nat.eqb i j = false).
    { destruct (Nat.eqb_spec i 0) as [->|E]; [exists 1; split; [lia|reflexivity]|]. exists 0. split; [lia|].
      now apply Nat.eqb_neq. }
    destruct Hj as (j & Hj & Bj).
    destruct (pick_index_ends s (S p) (length l) (Nat.eqb i) j Hf Hj (Hsh _ _ El) Bj) as (F & k & Hk1 & _ & HF).
    destruct (vec_get_lt l i Hi) as (x & Ex & _). destruct (vec_get_lt l _ Hk1) as (y & Ey & _).
    destruct (Hpp x) as (s1 & Hs1). destruct (Hpp y) as (s2 & Hs2).
    exists F. eexists. intros fuel Hfu. rewrite (HF fuel Hfu). cbn [bind]. rewrite Ex. cbn [bind]. rewrite Ey.
    cbn [bind]. rewrite Hs1. cbn [bind]. rewrite Hs2. reflexivity.
Qed.

Lemma vy_if_works e n s p :
  printer_total e -> vy_if_mutable n = Ok true -> works0 (vy_if e) n (at_pos s p).
Proof.
  intros Hpp Hm. unfold works0, vy_if, vy_if_mutable, vy_if_mutate in *. cbn [mu_mutate].
  apply ok_inj in Hm. destruct (is_ast "If" n); [|discriminate].
  destruct (oget n "test") as [c|] eqn:Ec; [|discriminate]. clear Hm.
  destruct (Hpp c) as (s1 & ->). cbn [bind]. rewrite next_mod_at by lia. cbn [bind].
  destruct (take_present n "test" c) as (n0 & Hk); [plain|exact Ec|]. rewrite Hk.
  destruct (Hpp (vy_bool_node true)) as (s2 & ->). destruct (Hpp (vy_bool_node false)) as (s3 & ->).
  destruct (Hpp (vy_unary_node "Not" c)) as (s4 & ->). cbn [bind].
  destruct ((s p mod 2 ^ 64) mod 3)%N as [|[q|q|]]; eexists; reflexivity.
Qed.

Lemma vy_int_works e n s p :
  printer_total e -> vy_supported (Generic Integer) n -> wf n ->
  works0 (vy_int e) n (at_pos s p).
Proof.
  intros Hpp Hsup Hwf. unfold works0, vy_int, vy_int_mutate. cbn [mu_mutate].
  destruct (Hpp n) as (s1 & ->). cbn [bind]. rewrite next_mod_at by lia. cbn [bind].
  set (k := ((s p mod 2 ^ 64) mod 3)%N).
  assert (G : exists n' r2, match k with
    | 2%N => let (d, r2) := next_u64 (at_pos s (S p)) in Ok (set_key n "value" (jint (u64_as_i64 d)), r2)
    | _ =>
        match oget n "value" with
        | Some v =>
            match as_i64 v with
            | Some z => let? z' := i64_add (e_oc e) z (if N.eqb k 0 then 1 else -1)%Z in
                        Ok (set_key n "value" (jint z'), at_pos s (S p))
            | None => Ok (n, at_pos s (S p))
            end
        | None => Ok (n, at_pos s (S p))
        end
    end = Ok (n', r2)).
  { assert (Hs : forall dd, (dd = 1 \/ dd = -1)%Z -> exists n' r2,
        match oget n "value" with
        | Some v =>
            match as_i64 v with
            | Some z => let? z' := i64_add (e_oc e) z dd in
                        Ok (set_key n "value" (jint z'), at_pos s (S p))
            | None => Ok (n, at_pos s (S p))
            end
        | None => Ok (n, at_pos s (S p))
        end = Ok (n', r2)).
    { intros dd Hd. destruct (oget n "value") as [v|] eqn:Ev; [|eauto].
      destruct (as_i64 v) as [z|] eqn:Ez; [|eauto].
      assert (v = jint z).
      { pose proof (wf_oget _ _ _ Hwf Ev) as Hv. unfold as_i64 in Ez. destruct v as [| |x| | |]; try discriminate.
        destruct x as [u|w|]; try discriminate.
        - destruct (N.ltb_spec u 9223372036854775808); [|discriminate]. injection Ez as <-. unfold jint.
          destruct (Z.ltb_spec (Z.of_N u) 0); [lia|]. now rewrite N2Z.id.
        - injection Ez as <-. simpl in Hv. unfold jint. destruct (Z.ltb_spec w 0); [reflexivity|lia]. }
      subst v. pose proof (Hsup z Ev) as Hz. unfold i64_add.
      assert (Hin : in_i64 (z + dd) = true) by (apply in_i64_spec; lia). rewrite Hin. cbn [bind]. eauto. }
    destruct k as [|[q|[q|q|]|]].
    - apply Hs. now left.
    - apply Hs. now right.
    - apply Hs. now right.
    - apply Hs. now right.
    - cbn. eauto.
    - apply Hs. now right. }
  destruct G as (n' & r2 & G). rewrite G. cbn [bind]. destruct (Hpp n') as (s2 & ->). cbn [bind].
  eexists. reflexivity.
Qed.

Lemma vy_swapop_works e n s p :
  printer_total e -> vy_supported (Generic SwapOperatorArguments) n ->
  vy_swapop_mutable n = Ok true -> works0 (vy_swapop e) n (at_pos s p).
Proof.
  intros Hpp Hsup Hm. unfold works0, vy_swapop, vy_swapop_mutable, vy_swapop_mutate in *. cbn [mu_mutate].
  destruct (is_ast_in _ n) eqn:Et; [|discriminate]. clear Hm.
  apply is_ast_in_spec in Et. destruct Et as (t & Hin & Ht).
  pose proof Ht as Ht'. unfold is_vy, has_field in Ht'. apply get_str_Some in Ht'; [|plain]. rewrite Ht'.
  assert (Htt : t = "BinOp" \/ t = "Compare").
  { simpl in Hin. destruct Hin as [<-|[<-|[<-|[]]]]; auto. simpl in Hsup. tauto. }
  assert (Hsm : smem t ["BinOp"; "Compare"] = true) by (destruct Htt as [->| ->]; reflexivity).
  assert (G : exists x, vy_swapop_edit e t n = Ok x).
  { unfold vy_swapop_edit. rewrite Hsm. destruct (take_key n "left") as [[a n0]|]; [|eauto].
    destruct (take_key n0 "right") as [[b n1]|]; [|eauto].
    destruct (Hpp a) as (s1 & ->). destruct (Hpp b) as (s2 & ->). cbn [bind]. eauto. }
  destruct G as (((n' & sa) & sb) & ->). cbn [bind]. eexists. reflexivity.
Qed.

Lemma vy_swaplines_works e n s p :
  printer_total e -> short_arrays n -> vy_supported (Generic SwapLines) n -> fair (at_pos s 0) ->
  works (vy_swaplines e) n (at_pos s p).
Proof.
  intros Hpp Hsh (l & Hl & i & j & x & y & Hij & Hx & Hy & Nx & Ny) Hf.
  unfold works, vy_swaplines, vy_swaplines_mutate. cbn [mu_mutate].
  destruct (take_present n "body" (JArr l)) as (n0 & Hk); [plain|exact Hl|]. rewrite Hk.
  destruct (two_picks s p (length l) (ast_at "Return" l) i j Hf (Hsh _ _ Hl) Hij)
    as (F & a & b & r1 & r2 & Hab & Ha & Hb & HF).
  - apply nth_error_Some; congruence.
  - apply nth_error_Some; congruence.
  - unfold ast_at. rewrite Hx. destruct (is_ast "Return" x) eqn:E; [apply is_ast_spec in E; tauto|reflexivity].
  - unfold ast_at. rewrite Hy. destruct (is_ast "Return" y) eqn:E; [apply is_ast_spec in E; tauto|reflexivity].
  - destruct (vec_swap_total a b l Hab Ha Hb) as (l' & u & v & Hs).
    destruct (Hpp u) as (s1 & Hs1). destruct (Hpp v) as (s2 & Hs2).
    exists F. eexists. intros fuel Hfu. destruct (HF fuel Hfu) as (G1 & G2). rewrite G1. cbn [bind].
    rewrite G2. cbn [bind]. rewrite Hs. cbn [bind]. rewrite Hs1, Hs2. reflexivity.
Qed.

Lemma vy_unary_works e n r :
  printer_total e -> vy_schema n -> vy_unary_mutable n = Ok true -> works0 (vy_unary e) n r.
Proof.
  intros Hpp Hsc Hm. unfold works0, vy_unary, vy_unary_mutable, vy_unary_mutate in *. cbn [mu_mutate].
  apply ok_inj in Hm. apply is_ast_spec in Hm. destruct Hsc as (_ & _ & Hv & _). destruct (Hv Hm) as (v & Hv').
  destruct (Hpp n) as (s1 & ->). cbn [bind].
  destruct (take_present n "operand" v) as (n0 & ->); [plain|exact Hv'|].
  destruct (Hpp v) as (s2 & ->). cbn [bind]. eexists. reflexivity.
Qed.

Lemma rev_all ops :
  forallb (fun c => match assoc c reverse_operators with Some _ => true | None => false end) ops = true ->
  forall c, In c ops -> exists v, assoc c reverse_operators = Some v.
Proof.
  intros H c Hc. rewrite forallb_forall in H. specialize (H c Hc). destruct (assoc c reverse_operators); [eauto|discriminate].
Qed.

Lemma vy_shift_never n : vy_binop_mutable bitshift_operators n = Ok false.
Proof.
  unfold vy_binop_mutable. f_equal. destruct (is_ast_in _ n); [|reflexivity].
  destruct (op_type n) as [t|]; [|reflexivity].
  destruct (assoc t python_operators) as [s|] eqn:E; [|reflexivity].
  apply assoc_In in E. simpl in E.
  repeat (destruct E as [E|E]; [injection E as <- <-; reflexivity|]). destruct E.
Qed.

Lemma vy_works e t m n r :
  printer_total e -> fair r -> wf n -> vy_schema n -> vy_supported t n ->
  vy_mutator_for e t = Some m -> mu_mutable m n = Ok true -> works m n r.
Proof.
  intros Hpp Hf Hwf Hsc Hsup Hm Hmut. rewrite (rng_eta r) in *. set (s := rstream r) in *. set (p := rpos r) in *.
  apply (fair_pos _ _ 0) in Hf. pose proof (proj1 Hsc) as Hsh.
  destruct t as [[]|[]]; simpl in Hm; try discriminate Hm; injection Hm as <-.
  - apply vy_binop_works; auto; [apply (two_of "+" "-"); simpl; auto; discriminate|vm_compute; discriminate|
      apply rev_all; reflexivity].
  - apply vy_binop_works; auto; [apply (two_of "&&" "||"); simpl; auto; discriminate|vm_compute; discriminate|
      apply rev_all; reflexivity].
  - apply vy_binop_works; auto; [apply (two_of "&" "|"); simpl; auto; discriminate|vm_compute; discriminate|
      apply rev_all; reflexivity].
  - cbn [vy_binop mu_mutable] in Hmut. rewrite vy_shift_never in Hmut. discriminate.
  - apply vy_binop_works; auto; [apply (two_of "==" "!="); simpl; auto; discriminate|vm_compute; discriminate|
      apply rev_all; reflexivity].
  - apply works0_works. now apply vy_assign_works.
  - apply works0_works. now apply vy_delete_works.
  - now apply vy_call_works.
  - apply works0_works. now apply vy_if_works.
  - apply works0_works. now apply vy_int_works.
  - now apply vy_swapargs_works.
  - apply works0_works. now apply vy_swapop_works.
  - now apply vy_swaplines_works.
  - apply works0_works. now apply vy_unary_works.
Qed.
