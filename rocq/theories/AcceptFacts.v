(** The operators accept exactly the nodes [SpecAccept] describes. *)
From Coq Require Import String Ascii List NArith ZArith Bool Lia Arith.
From Verif Require Import Base Json Rng MutationType Traverse OpCommon SolMutators VyMutators
  JsonFacts SpecOps SpecTotal SpecAccept OpFacts TraverseFacts SolFacts VyFacts OpTotal OpTotalVy.
Import ListNotations.
Open Scope list_scope.
Open Scope string_scope.

Lemma ok_true (b : bool) : Ok b = Ok true <-> b = true.
Proof. split; [apply ok_inj|congruence]. Qed.

Lemma arr_of_none n k : arr_of n k = None -> forall l, ~ has_field n k (JArr l).
Proof. intros H l Hl. apply arr_of_spec in Hl. congruence. Qed.

Lemma arr_of_iff n k (f : list json -> bool) (P : list json -> Prop) :
  (forall l, f l = true <-> P l) ->
  (match arr_of n k with Some l => f l | None => false end = true <->
   exists l, has_field n k (JArr l) /\ P l).
Proof.
  intros H. destruct (arr_of n k) as [l|] eqn:E.
  - apply arr_of_spec in E. rewrite H. split; [eauto|]. intros (l' & E' & HP). unfold has_field in *. congruence.
  - split; [discriminate|]. intros (l & Hl & _). exfalso. eapply arr_of_none; eauto.
Qed.

Lemma str_iff n k (f : string -> bool) (P : string -> Prop) : plain_key k = true ->
  (forall s, f s = true <-> P s) ->
  (match get_str n k with Some s => f s | None => false end = true <->
   exists s, has_field n k (JStr s) /\ P s).
Proof.
  intros Hk H. destruct (get_str n k) as [s|] eqn:E.
  - apply get_str_Some in E; [|exact Hk]. rewrite H. split; [eauto|]. intros (s' & E' & HP).
    unfold has_field in *. rewrite E in E'. injection E' as <-. exact HP.
  - split; [discriminate|]. intros (s & Hs & _). apply get_str_Some in Hs; [congruence|exact Hk].
Qed.

Lemma if_iff (b c : bool) : (if b then c else false) = true <-> b = true /\ c = true.
Proof. destruct b; simpl; intuition congruence. Qed.

Lemma existsb_place (f : json -> bool) (P : json -> Prop) l :
  (forall x, f x = true <-> P x) -> (existsb f l = true <-> one_place P l).
Proof.
  intros H. rewrite existsb_exists. unfold one_place.
  split; intros (x & A & B); exists x; (split; [exact A|now apply H]).
Qed.

Lemma same_class (a b : list string) : incl a b -> incl b a -> forall x, In x a <-> In x b.
Proof. intros A B x. split; [apply A|apply B]. Qed.

Ltac same := let x := fresh in let H := fresh in
  apply same_class; intros x H; simpl in *; intuition.

Lemma sol_binary_iff ops class n : (forall x, In x ops <-> In x class) ->
  (sol_binop_mutable ops n = Ok true <-> sol_binary class n).
Proof.
  intros Hc. unfold sol_binop_mutable, sol_binary. rewrite ok_true, if_iff, is_type_spec.
  rewrite (str_iff n "operator" (fun op => smem op ops) (fun op => In op class)); [|plain|].
  - split; intros (A & s & B & C); eauto.
  - intros s. rewrite smem_In'. apply Hc.
Qed.

Lemma sol_unary_iff n : sol_unary_mutable n = Ok true <-> sol_accepts (Generic UnaryOp) n.
Proof.
  unfold sol_unary_mutable; cbn [sol_accepts]. rewrite ok_true, if_iff, is_type_spec.
  apply and_iff_compat_l. destruct (get_bool n "prefix") as [p|] eqn:E.
  - apply get_bool_Some in E; [|plain].
    rewrite (str_iff n "operator" (fun op => smem op (if p then prefix_operators else postfix_operators))
               (fun op => In op (if p then prefix_ops else postfix_ops))); [|plain|].
    + split; [intros (s & A & B); exists p, s; auto|].
      intros (p' & s & A & B & C). unfold has_field in *. rewrite E in A. injection A as <-. eauto.
    + intros s. rewrite smem_In'. destruct p; reflexivity.
  - split; [discriminate|]. intros (p & s & A & _). apply get_bool_Some in A; [congruence|plain].
Qed.

Lemma slice3_inv ts pre : slice_to 3 ts = Ok pre -> String.length pre = 3 -> text_starts pre ts.
Proof.
  unfold slice_to, text_starts. intros H Hl.
  destruct (Nat.leb 3 (String.length ts)); [|discriminate]. cbn [andb] in H.
  destruct (is_char_boundary 3 ts) eqn:E; [|discriminate]. apply ok_inj in H. subst pre.
  destruct ts as [|a [|b [|c rest]]]; simpl in *; try discriminate.
  exists rest. split; [reflexivity|]. intros d rest' ->. unfold is_char_boundary in E. simpl in E.
  destruct (is_cont_byte d); [discriminate|reflexivity].
Qed.

Lemma String_append_length a b : String.length (a ++ b) = String.length a + String.length b.
Proof. induction a; simpl; auto. Qed.

Lemma slen_length s : slen s = N.of_nat (String.length s).
Proof. induction s; simpl; [reflexivity|]. rewrite IHs. lia. Qed.

Lemma sol_assign_iff n : sol_assign_mutable n = Ok true <-> sol_accepts (Generic Assignment) n.
Proof.
  unfold sol_assign_mutable; cbn [sol_accepts]. destruct (is_type "Assignment" n) eqn:Et.
  - apply is_type_spec in Et. destruct (sol_assign_type n) as [ts|] eqn:Ets.
    + apply sol_assign_type_spec in Ets.
      assert (U : forall ts', sol_type_of n ts' -> ts' = ts).
      { intros ts' H. apply sol_assign_type_spec in H. apply sol_assign_type_spec in Ets. congruence. }
      split.
      * intros H. split; [exact Et|]. exists ts. split; [exact Ets|].
        destruct (N.ltb (slen ts) 3); [discriminate|].
        destruct (slice_to 3 ts) as [pre| | |] eqn:Es; cbn [bind] in H; try discriminate.
        apply ok_inj in H. apply smem_In' in H. simpl in H.
        destruct H as [<-|[<-|[<-|[]]]]; [left|right; left|right; right]; now apply slice3_inv.
      * intros (_ & ts' & H1 & H2). apply U in H1. subst ts'.
        assert (G : forall pre, String.length pre = 3 -> text_starts pre ts ->
                    (N.ltb (slen ts) 3) = false /\ slice_to 3 ts = Ok pre).
        { intros pre Hl (rest & -> & Hr). split; [|now apply slice3]. apply N.ltb_ge. rewrite slen_length.
          rewrite String_append_length. lia. }
        destruct H2 as [H2|[H2|H2]]; apply G in H2; try reflexivity; destruct H2 as (-> & ->); reflexivity.
    + split; [discriminate|]. intros (_ & ts & H & _). apply sol_assign_type_spec in H. congruence.
  - split; [discriminate|]. intros (H & _). apply is_type_spec in H. congruence.
Qed.

Lemma sol_delete_iff n : sol_delete_mutable n = Ok true <-> sol_accepts (Generic DeleteStatement) n.
Proof.
  unfold sol_delete_mutable; cbn [sol_accepts]. rewrite ok_true, if_iff, is_type_spec. apply and_iff_compat_l.
  apply arr_of_iff. intros l. rewrite andb_true_iff, Nat.ltb_lt.
  now rewrite (existsb_place _ (is_sol "ExpressionStatement")) by apply is_type_spec.
Qed.

Lemma sol_call_iff n : sol_call_mutable n = Ok true <-> sol_accepts (Generic FunctionCall) n.
Proof.
  unfold sol_call_mutable; cbn [sol_accepts]. rewrite ok_true, if_iff, is_type_spec. apply and_iff_compat_l.
  rewrite <- (arr_of_iff n "arguments" (fun l => match l with [] => false
     | _ => if existsb (is_type "Literal") l then Nat.ltb 1 (length l) else true end)).
  - destruct (arr_of n "arguments") as [[|x l]|]; reflexivity.
  - intros [|x l]; [split; [discriminate|tauto]|].
    split.
    + intros H. split; [discriminate|]. intros y E. injection E as -> ->. simpl in H.
      destruct (is_type "Literal" y) eqn:Ey; [discriminate|]. intros Hy. apply is_type_spec in Hy. congruence.
    + intros (_ & H). destruct l as [|y l].
      * simpl. specialize (H x eq_refl). destruct (is_type "Literal" x) eqn:Ex; [|reflexivity].
        apply is_type_spec in Ex. tauto.
      * destruct (existsb _ _); reflexivity.
Qed.

(** The grouping puts every typed argument into the group of its type. *)
Lemma group_add_assoc {A} k (x : A) g k' :
  assoc k' (group_add k x g) =
  if k' =?s k then Some (match assoc k g with Some l => List.app l [x] | None => [x] end) else assoc k' g.
Proof.
  induction g as [|[k0 l] g IH]; simpl.
  - destruct (k' =?s k); reflexivity.
  - destruct (String.eqb_spec k k0) as [E|Hne]; simpl.
    + subst k0. destruct (k' =?s k); reflexivity.
    + rewrite IH. destruct (String.eqb_spec k' k0) as [->|]; [|reflexivity].
      destruct (String.eqb_spec k0 k); [congruence|reflexivity].
Qed.

Definition of_type (t : string) (v : json) : bool :=
  match arg_type v with Some t' => t =?s t' | None => false end.

Lemma arg_groups_len l : forall t i g,
  length (match assoc t (arg_groups_from i l g) with Some x => x | None => [] end) =
  length (match assoc t g with Some x => x | None => [] end) + length (filter (of_type t) l).
Proof.
  induction l as [|v l IH]; intros t i g; simpl; [lia|].
  rewrite IH. unfold of_type at 2. destruct (arg_type v) as [t'|]; [|lia].
  rewrite group_add_assoc. destruct (String.eqb_spec t t') as [->|]; simpl; [|lia].
  destruct (assoc t' g); rewrite ?app_length; simpl; lia.
Qed.

Lemma filter_two (P : json -> Prop) (f : json -> bool) l : (forall x, f x = true <-> P x) ->
  (2 <= length (filter f l) <-> two_places P l).
Proof.
  intros Hf. split.
  - induction l as [|x l IH]; simpl; [lia|]. destruct (f x) eqn:E.
    + simpl. intros H. destruct (filter f l) as [|y rest] eqn:Ey; simpl in H; [lia|].
      assert (Hy : In y (filter f l)) by (rewrite Ey; now left). apply filter_In in Hy. destruct Hy as (Hy & Fy).
      apply In_nth_error in Hy. destruct Hy as (j & Hj).
      exists 0, (S j), x, y. repeat split; auto; now apply Hf.
    + intros H. destruct (IH H) as (i & j & a & b & Hij & Ha & Hb & Pa & Pb).
      exists (S i), (S j), a, b. auto 10.
  - intros (i & j & a & b & Hij & Ha & Hb & Pa & Pb). apply Hf in Pa, Pb.
    assert (G : forall l i j, i < j -> nth_error l i = Some a -> nth_error l j = Some b -> 2 <= length (filter f l)).
    { clear - Pa Pb. induction l as [|x l IH]; intros i j Hlt Ha Hb; [destruct i; discriminate|].
      destruct j as [|j]; [lia|]. simpl in Hb. destruct i as [|i].
      - injection Ha as ->. simpl. rewrite Pa. simpl.
        assert (Hq : In b (filter f l)) by (apply filter_In; split; [eapply nth_error_In; eauto|exact Pb]).
        destruct (filter f l); [destruct Hq|simpl; lia].
      - simpl in *. specialize (IH i j). destruct (f x); simpl; [|apply IH; auto; lia].
        enough (2 <= length (filter f l)) by lia. apply IH; auto. lia. }
    destruct (Nat.lt_ge_cases i j); [eapply G; eauto|].
    assert (Hji : j < i) by lia. clear G.
    assert (G : forall l i j, j < i -> nth_error l i = Some a -> nth_error l j = Some b -> 2 <= length (filter f l)).
    { clear - Pa Pb. induction l as [|x l IH]; intros i j Hlt Ha Hb; [destruct i; discriminate|].
      destruct i as [|i]; [lia|]. simpl in Ha. destruct j as [|j].
      - injection Hb as ->. simpl. rewrite Pb. simpl.
        assert (Hq : In a (filter f l)) by (apply filter_In; split; [eapply nth_error_In; eauto|exact Pa]).
        destruct (filter f l); [destruct Hq|simpl; lia].
      - simpl in *. specialize (IH i j). destruct (f x); simpl; [|apply IH; auto; lia].
        enough (2 <= length (filter f l)) by lia. apply IH; auto. lia. }
    eapply G; eauto.
Qed.

Lemma two_places_length {A} (P : A -> Prop) l : two_places P l -> 2 <= length l.
Proof.
  intros (i & j & a & b & Hij & Ha & Hb & _).
  assert (i < length l) by (apply nth_error_Some; congruence).
  assert (j < length l) by (apply nth_error_Some; congruence). lia.
Qed.

Lemma of_type_spec t v : of_type t v = true <-> sol_type_of v t.
Proof.
  unfold of_type. rewrite <- arg_type_spec. destruct (arg_type v) as [t'|]; [|split; discriminate].
  rewrite String.eqb_eq. split; congruence.
Qed.

Lemma sol_swapargs_iff n :
  sol_swapargs_mutable n = Ok true <-> sol_accepts (Generic SwapFunctionArguments) n.
Proof.
  unfold sol_swapargs_mutable; cbn [sol_accepts]. rewrite ok_true, if_iff, is_type_spec. apply and_iff_compat_l.
  rewrite (arr_of_iff n "arguments" _ (fun l => exists ts, two_places (fun x => sol_type_of x ts) l)).
  - split; [intros (l & A & ts & B)|intros (l & ts & A & B)]; eauto.
  - intros l. rewrite if_iff, Nat.ltb_lt, existsb_exists. split.
    + intros (_ & (ts & g) & Hin & Hlen). cbn [snd] in Hlen. apply Nat.leb_le in Hlen. exists ts.
      apply (filter_two _ (of_type ts)); [apply of_type_spec|].
      pose proof (arg_groups_len l ts 0 []) as HL. simpl in HL. unfold arg_groups in Hin.
      assert (Ha : assoc ts (arg_groups_from 0 l []) = Some g).
      { pose proof (arg_groups_nodup l) as Hnd. unfold arg_groups in Hnd. revert Hin Hnd.
        generalize (arg_groups_from 0 l []). clear. induction l as [|[k x] l IH]; simpl; [tauto|].
        intros [E|Hin] Hnd; inversion Hnd as [|? ? Hn Hd]; subst.
        - injection E as -> ->. now rewrite String.eqb_refl.
        - destruct (String.eqb_spec ts k) as [->|]; [|auto]. exfalso. apply Hn. apply in_map_iff. exists (k, g). auto. }
      rewrite Ha in HL. lia.
    + intros (ts & H2). split; [apply two_places_length in H2; lia|].
      apply (filter_two _ (of_type ts)) in H2; [|apply of_type_spec].
      pose proof (arg_groups_len l ts 0 []) as HL. simpl in HL. unfold arg_groups.
      destruct (assoc ts (arg_groups_from 0 l [])) as [g|] eqn:Ea; simpl in HL; [|lia].
      exists (ts, g). split; [now apply assoc_In|]. cbn [snd]. apply Nat.leb_le. lia.
Qed.

Lemma sol_if_iff n : sol_if_mutable n = Ok true <-> sol_accepts (Generic IfStatement) n.
Proof.
  unfold sol_if_mutable; cbn [sol_accepts]. rewrite ok_true, if_iff, is_type_spec. apply and_iff_compat_l.
  unfold has_field. destruct (oget n "condition") as [c|].
  - split; [intros H; exists c; split; [reflexivity|intros ->; discriminate]|].
    intros (c' & E & H). injection E as <-. destruct c; try reflexivity. tauto.
  - split; [discriminate|]. intros (c & E & _). discriminate.
Qed.

Lemma str_contains_spec c s : str_contains c s = true <-> exists a b, s = a ++ String c b.
Proof.
  induction s as [|d s IH]; simpl.
  - split; [discriminate|]. intros ([|x a] & b & H); discriminate.
  - destruct (Ascii.eqb_spec c d) as [->|Hne].
    + split; [|reflexivity]. intros _. exists "", s. reflexivity.
    + rewrite IH. split.
      * intros (a & b & ->). exists (String d a), b. reflexivity.
      * intros ([|x a] & b & H); simpl in H; injection H as -> H; [congruence|eauto].
Qed.

Lemma sol_int_iff n : sol_int_mutable n = Ok true <-> sol_accepts (Generic Integer) n.
Proof.
  unfold sol_int_mutable; cbn [sol_accepts]. rewrite ok_true, if_iff, is_type_spec. apply and_iff_compat_l.
  rewrite (str_iff n "kind" _ (fun k => k = "number" /\ exists v, has_field n "value" (JStr v) /\
      ~ (exists a b, v = a ++ String "." b))); [|plain|].
  - split; [intros (k & A & -> & B); auto|]. intros (A & B). eauto.
  - intros k. rewrite if_iff, String.eqb_eq. apply and_iff_compat_l. apply str_iff; [plain|].
    intros v. rewrite negb_true_iff, <- str_contains_spec. destruct (str_contains "." v); intuition congruence.
Qed.

Lemma swappable_iff (f : json -> bool) (P : json -> Prop) l : (forall x, f x = true <-> P x) ->
  ((Nat.leb 2 (length l) && (negb (existsb f l) || Nat.leb 3 (length l)))%bool = true <-> swappable P l).
Proof.
  intros H. unfold swappable. rewrite andb_true_iff, orb_true_iff, negb_true_iff, !Nat.leb_le.
  apply and_iff_compat_l. rewrite <- (existsb_place f P l H). destruct (existsb f l); intuition congruence.
Qed.

Lemma sol_swaplines_iff n : sol_swaplines_mutable n = Ok true <-> sol_accepts (Generic SwapLines) n.
Proof.
  unfold sol_swaplines_mutable; cbn [sol_accepts]. rewrite ok_true, if_iff, is_type_spec. apply and_iff_compat_l.
  apply arr_of_iff. intros l. apply swappable_iff. apply is_type_spec.
Qed.

Lemma sol_require_iff n : sol_require_mutable n = Ok true <-> sol_accepts (Solidity Require) n.
Proof.
  unfold sol_require_mutable; cbn [sol_accepts]. rewrite ok_true, !andb_true_iff, is_type_spec, negb_true_iff.
  rewrite get_array_plain by plain. unfold has_field.
  assert (A1 : match oget n "expression" with
     | Some x => match get_str x "name" with Some s => s =?s "require" | None => false end
     | None => false end = true <-> exists f, oget n "expression" = Some f /\ oget f "name" = Some (JStr "require")).
  { destruct (oget n "expression") as [x|].
    - rewrite (str_iff x "name" _ (fun s => s = "require")); [|plain|intros; apply String.eqb_eq].
      split; [intros (s & A & ->); eauto|]. intros (f & E & H). injection E as <-. eauto.
    - split; [discriminate|]. intros (f & E & _). discriminate. }
  assert (A2 : match match oget n "arguments" with Some v => as_array v | None => None end with
       | Some [] => true | _ => false end = false <-> oget n "arguments" <> Some (JArr [])).
  { destruct (oget n "arguments") as [[| | | |[|x l]|]|]; simpl; intuition congruence. }
  rewrite A1, A2. tauto.
Qed.

Lemma sol_unchecked_iff n : sol_unchecked_mutable n = Ok true <-> sol_accepts (Solidity UncheckedBlock) n.
Proof.
  unfold sol_unchecked_mutable; cbn [sol_accepts]. rewrite ok_true, if_iff, is_type_spec. apply and_iff_compat_l.
  rewrite <- (arr_of_iff n "statements" (fun l => match l with [] => false
     | _ => Nat.leb (1 + (if existsb (is_type "Return") l then 1 else 0)
                       + (if existsb (is_type "UncheckedBlock") l then 1 else 0)) (length l) end)).
  - destruct (arr_of n "statements") as [[|x l]|]; reflexivity.
  - intros l.
    rewrite <- !(existsb_place (is_type "Return") (is_sol "Return")) by apply is_type_spec.
    rewrite <- !(existsb_place (is_type "UncheckedBlock") (is_sol "UncheckedBlock")) by apply is_type_spec.
    destruct l as [|x l]; [split; [discriminate|tauto]|]. rewrite Nat.leb_le.
    set (L := x :: l). assert (L <> []) by discriminate. assert (1 <= length L) by (simpl; lia).
    destruct (existsb (is_type "Return") L), (existsb (is_type "UncheckedBlock") L);
      (split; [intros H'; repeat split; auto; intros; try discriminate; lia
              |intros (_ & H1 & H2 & H3); try specialize (H1 eq_refl); try specialize (H2 eq_refl);
               try specialize (H3 eq_refl eq_refl); simpl in *; lia]).
Qed.

Lemma sol_delegate_iff n : sol_delegate_mutable n = Ok true <-> sol_accepts (Solidity ElimDelegateCall) n.
Proof.
  unfold sol_delegate_mutable; cbn [sol_accepts]. rewrite ok_true, if_iff, is_type_spec. apply and_iff_compat_l.
  rewrite (str_iff n "memberName" _ (fun s => s = "delegatecall")); [|plain|intros; apply String.eqb_eq].
  split; [intros (s & A & ->); auto|eauto].
Qed.

Lemma sol_accepts_iff e t m n :
  sol_mutator_for e t = Some m -> (mu_mutable m n = Ok true <-> sol_accepts t n).
Proof.
  intros Hm. destruct t as [[]|[]]; simpl in Hm; injection Hm as <-; cbn [mu_mutable].
  - apply sol_binary_iff. same.
  - apply sol_binary_iff. same.
  - apply sol_binary_iff. same.
  - apply sol_binary_iff. same.
  - apply sol_binary_iff. same.
  - apply sol_assign_iff.
  - apply sol_delete_iff.
  - apply sol_call_iff.
  - apply sol_if_iff.
  - apply sol_int_iff.
  - apply sol_swapargs_iff.
  - change (sol_swapop_mutable n) with (sol_binop_mutable non_commutative_operators n). apply sol_binary_iff. same.
  - apply sol_swaplines_iff.
  - apply sol_unary_iff.
  - apply sol_require_iff.
  - apply sol_unchecked_iff.
  - apply sol_delegate_iff.
Qed.

(** ** Vyper *)
Lemma vy_ops_iff ops class n :
  forallb (fun kv => Bool.eqb (smem (snd kv) ops) (smem (fst kv) class)) python_operators = true ->
  forallb (fun c => smem c (map fst python_operators)) class = true ->
  (match op_type n with
   | Some t => match assoc t python_operators with Some s => smem s ops | None => false end
   | None => false
   end = true <-> exists op t, has_field n "op" op /\ In t class /\ is_vy t op).
Proof.
  intros H1 H2. rewrite forallb_forall in H1, H2.
  destruct (op_type n) as [t|] eqn:E.
  - pose proof E as E'. apply op_type_spec in E'. destruct E' as (o & Ho & Hto).
    assert (G : match assoc t python_operators with Some s => smem s ops | None => false end = smem t class).
    { destruct (assoc t python_operators) as [s|] eqn:Ea.
      - apply assoc_In in Ea. specialize (H1 _ Ea). now apply eqb_prop in H1.
      - destruct (smem t class) eqn:Es; [|reflexivity]. exfalso. apply smem_In' in Es. specialize (H2 _ Es).
        apply smem_In' in H2. clear - H2 Ea. revert H2 Ea. generalize python_operators.
        induction l as [|[k v] l IH]; simpl; [tauto|]. destruct (String.eqb_spec t k); [discriminate|].
        intros [->|H]; [congruence|auto]. }
    rewrite G, smem_In'. split; [eauto|]. intros (op & t' & A & B & C). unfold has_field, is_vy, has_field in *.
    rewrite Ho in A. injection A as <-. rewrite Hto in C. injection C as <-. exact B.
  - split; [discriminate|]. intros (op & t & A & _ & C).
    assert (op_type n = Some t) by (apply op_type_spec; eauto). congruence.
Qed.

Lemma ast_in3 a b c n : is_ast_in [a; b; c] n = true <-> is_vy a n \/ is_vy b n \/ is_vy c n.
Proof.
  rewrite is_ast_in_spec. split.
  - intros (t & H & Ht). simpl in H. destruct H as [<-|[<-|[<-|[]]]]; auto.
  - intros [H|[H|H]]; eexists; (split; [|exact H]); simpl; auto.
Qed.

Lemma ast_in4 a b c d n : is_ast_in [a; b; c; d] n = true <-> is_vy a n \/ is_vy b n \/ is_vy c n \/ is_vy d n.
Proof.
  rewrite is_ast_in_spec. split.
  - intros (t & H & Ht). simpl in H. destruct H as [<-|[<-|[<-|[<-|[]]]]]; auto.
  - intros [H|[H|[H|H]]]; eexists; (split; [|exact H]); simpl; auto.
Qed.

Lemma vy_binary_iff ops class n :
  forallb (fun kv => Bool.eqb (smem (snd kv) ops) (smem (fst kv) class)) python_operators = true ->
  forallb (fun c => smem c (map fst python_operators)) class = true ->
  (vy_binop_mutable ops n = Ok true <-> vy_binary class n).
Proof.
  intros H1 H2. unfold vy_binop_mutable, vy_binary. rewrite ok_true, if_iff, ast_in3.
  apply and_iff_compat_l. now apply vy_ops_iff.
Qed.

Lemma vy_swapop_iff n : vy_swapop_mutable n = Ok true <-> vy_binary vy_non_commutative n.
Proof.
  rewrite <- (vy_binary_iff non_commutative_operators) by reflexivity.
  unfold vy_swapop_mutable, vy_binop_mutable. destruct (is_ast_in _ n); [|tauto].
  destruct (op_type n) as [t|]; [|tauto]. destruct (assoc t python_operators); [tauto|]. split; discriminate.
Qed.

Lemma vy_delete_iff e n : vy_delete_mutable e n = Ok true <-> vy_accepts e (Generic DeleteStatement) n.
Proof.
  unfold vy_delete_mutable; cbn [vy_accepts]. destruct (is_ast_in _ n) eqn:Et.
  - apply ast_in4 in Et. destruct (varr_of n "body") as [l|] eqn:El.
    + apply varr_of_spec in El.
      assert (U : forall l', has_field n "body" (JArr l') -> l' = l).
      { intros l' H. unfold has_field in *. congruence. }
      split.
      * intros H. split; [exact Et|]. exists l. split; [exact El|].
        destruct l as [|x [|y l]]; [discriminate| |].
        -- split; [discriminate|]. intros x' E. injection E as <-.
           destruct (e_pp e x) as [s| | |]; cbn [bind] in H; try discriminate. exists s. split; [reflexivity|].
           apply ok_inj in H. apply negb_true_iff in H. intros Hin. apply smem_In' in Hin. simpl in *. congruence.
        -- split; [discriminate|]. intros x' E. discriminate.
      * intros (_ & l' & Hl' & Hne & H). apply U in Hl'. subst l'.
        destruct l as [|x [|y l]]; [tauto| |reflexivity].
        destruct (H x eq_refl) as (s & -> & Hs). cbn [bind]. f_equal. apply negb_true_iff.
        destruct (smem s ["view"; "nonpayable"; "payable"]) eqn:E; [|reflexivity]. apply smem_In' in E. simpl in *. tauto.
    + split; [discriminate|]. intros (_ & l & Hl & _). apply varr_of_spec in Hl. congruence.
  - split; [discriminate|]. intros (H & _). apply ast_in4 in H. congruence.
Qed.

Lemma vy_accepts_iff e t m n :
  vy_mutator_for e t = Some m -> (mu_mutable m n = Ok true <-> vy_accepts e t n).
Proof.
  intros Hm. destruct t as [[]|[]]; simpl in Hm; try discriminate Hm; injection Hm as <-; cbn [mu_mutable].
  - now apply vy_binary_iff.
  - now apply vy_binary_iff.
  - now apply vy_binary_iff.
  - cbn [vy_binop mu_mutable]. rewrite vy_shift_never. simpl. split; [discriminate|tauto].
  - now apply vy_binary_iff.
  - cbn [mu_mutable vy_accepts vy_assign vy_call vy_if vy_int vy_swapargs vy_swaplines vy_unary]. unfold vy_assign_mutable. now rewrite ok_true, is_ast_spec.
  - apply vy_delete_iff.
  - cbn [mu_mutable vy_accepts vy_assign vy_call vy_if vy_int vy_swapargs vy_swaplines vy_unary]. unfold vy_call_mutable. rewrite ok_true, if_iff, is_ast_spec. apply and_iff_compat_l.
    rewrite <- (arr_of_iff n "args" (fun l => match l with [] => false | _ => true end)).
    + unfold varr_of, arr_of. destruct (match oget n "args" with Some v => as_array v | None => None end) as [[|]|];
        reflexivity.
    + intros [|x l]; split; (congruence || (intros; discriminate) || reflexivity).
  - cbn [mu_mutable vy_accepts vy_assign vy_call vy_if vy_int vy_swapargs vy_swaplines vy_unary]. unfold vy_if_mutable. rewrite ok_true, if_iff, is_ast_spec. apply and_iff_compat_l. unfold has_field.
    destruct (oget n "test"); [split; eauto|]. split; [discriminate|]. intros (c & E). discriminate.
  - cbn [mu_mutable vy_accepts vy_assign vy_call vy_if vy_int vy_swapargs vy_swaplines vy_unary]. unfold vy_int_mutable. now rewrite ok_true, is_ast_spec.
  - cbn [mu_mutable vy_accepts vy_assign vy_call vy_if vy_int vy_swapargs vy_swaplines vy_unary]. unfold vy_swapargs_mutable. rewrite ok_true, if_iff, is_ast_spec. apply and_iff_compat_l.
    apply (arr_of_iff n "args" (fun l => Nat.leb 2 (length l))). intros l. apply Nat.leb_le.
  - apply vy_swapop_iff.
  - cbn [mu_mutable vy_accepts vy_assign vy_call vy_if vy_int vy_swapargs vy_swaplines vy_unary]. unfold vy_swaplines_mutable. rewrite ok_true, if_iff, ast_in3. apply and_iff_compat_l.
    apply (arr_of_iff n "body" (fun l => (Nat.leb 2 (length l) &&
             (negb (existsb (is_ast "Return") l) || Nat.leb 3 (length l)))%bool)).
    intros l. apply swappable_iff. apply is_ast_spec.
  - cbn [mu_mutable vy_accepts vy_assign vy_call vy_if vy_int vy_swapargs vy_swaplines vy_unary]. unfold vy_unary_mutable. now rewrite ok_true, is_ast_spec.
Qed.
