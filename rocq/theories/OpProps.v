(** The operator lemmas in the form in which the properties state them. *)
From Coq Require Import String Ascii List NArith ZArith Bool Lia Arith Permutation FinFun.
From Verif Require Import Base Json Rng MutationType Traverse OpCommon SolMutators VyMutators
  JsonFacts SpecOps SpecTotal SpecAccept OpFacts TraverseFacts TraverseFacts3 SolFacts VyFacts OpTotal OpTotalVy
  OpSafe AcceptFacts.
Import ListNotations.
Open Scope list_scope.
Open Scope string_scope.

(** ** Exchanges *)
Lemma exchanged_permutation {A} i j (l l' : list A) : exchanged i j l l' -> Permutation l l'.
Proof.
  intros (H1 & H2 & H3 & H4 & H5 & H6 & H7). apply Permutation_nth_error. split; [congruence|].
  exists (fun k => if Nat.eqb k i then j else if Nat.eqb k j then i else k). split.
  - intros a b. destruct (Nat.eqb_spec a i), (Nat.eqb_spec b i), (Nat.eqb_spec a j), (Nat.eqb_spec b j); congruence.
  - intros k. destruct (Nat.eqb_spec k i) as [->|]; [exact H5|].
    destruct (Nat.eqb_spec k j) as [->|]; [exact H6|]. now apply H7.
Qed.

Lemma exchanged_keeps {A} (P : A -> Prop) i j (l l' : list A) : exchanged i j l l' ->
  (forall x, nth_error l i = Some x \/ nth_error l j = Some x -> ~ P x) ->
  forall k x, P x -> (nth_error l k = Some x <-> nth_error l' k = Some x).
Proof.
  intros (H1 & H2 & H3 & H4 & H5 & H6 & H7) HP k x Hx.
  destruct (Nat.eq_dec k i) as [->|Hi].
  - rewrite H5. split; intros E; exfalso; eapply HP; eauto.
  - destruct (Nat.eq_dec k j) as [->|Hj].
    + rewrite H6. split; intros E; exfalso; eapply HP; eauto.
    + now rewrite H7.
Qed.

(** ** Fields *)
Lemma same_object o o' : wf_obj o -> map fst o' = map fst o -> (forall k, assoc k o' = assoc k o) -> o' = o.
Proof.
  revert o'; induction o as [|[k v] o IH]; intros [|[k' v'] o'] Hw Hk Ha; try discriminate; [reflexivity|].
  simpl in Hk. injection Hk as -> Hk. destruct Hw as (Hab & Hv & Hw).
  pose proof (Ha k) as E. simpl in E. rewrite String.eqb_refl in E. injection E as ->. f_equal.
  apply IH; auto. intros x. specialize (Ha x). simpl in Ha. destruct (String.eqb_spec x k) as [Ex|]; [|exact Ha]. rewrite Ex.
  rewrite (keys_above_assoc k o Hab).
  assert (Hn : ~ In k (map fst o')).
  { rewrite Hk. clear - Hab. induction Hab as [|[x y] o Hx Ho IH]; simpl; [tauto|].
    intros [->|Hi]; [simpl in Hx; rewrite str_ltb_irrefl in Hx; discriminate|tauto]. }
  clear - Hn. induction o' as [|[x y] o IH]; simpl in *; [reflexivity|].
  destruct (String.eqb_spec k x); [subst; tauto|]. apply IH. tauto.
Qed.

Lemma two_fields_back ka a kb b n n1 n2 : wf n -> ka <> kb ->
  has_field n ka a -> has_field n kb b ->
  two_fields_become ka b kb a n n1 -> two_fields_become ka a kb b n1 n2 -> n2 = n.
Proof.
  intros Hw Hne Ha Hb (o & o1 & -> & -> & K1 & A1 & B1 & C1) (o1' & o2 & E & -> & K2 & A2 & B2 & C2).
  injection E as <-. f_equal. apply wf_object in Hw. apply same_object; [exact Hw|congruence|].
  unfold has_field in *. simpl in Ha, Hb. intros k.
  destruct (String.eqb_spec k ka) as [->|]; [congruence|].
  destruct (String.eqb_spec k kb) as [->|]; [congruence|]. rewrite C2, C1; auto.
Qed.

Lemma two_fields_other ka a kb b n n' k v :
  two_fields_become ka a kb b n n' -> k <> ka -> k <> kb -> (has_field n k v <-> has_field n' k v).
Proof.
  intros (o & o' & -> & -> & _ & _ & _ & C) Ha Hb. unfold has_field. simpl. now rewrite C.
Qed.

(** ** Swap operator arguments *)
Lemma sol_swapop_twice e fuel n r d fuel' r' d' :
  wf n -> sol_swapop_mutable n = Ok true -> sol_swapop_mutate e fuel n r = Ok d ->
  sol_swapop_mutable (md_node d) = Ok true /\
  (sol_swapop_mutate e fuel' (md_node d) r' = Ok d' -> md_node d' = n).
Proof.
  intros Hw Hm H. pose proof (sol_swapop_fact _ _ _ _ _ Hm H) as (op & a & b & Et & Ho & Hin & Ha & Hb & H2).
  assert (T : forall k v, k <> "leftExpression" -> k <> "rightExpression" ->
     (has_field n k v <-> has_field (md_node d) k v)).
  { intros k v K1 K2. eapply two_fields_other; eauto. }
  assert (Hm' : sol_swapop_mutable (md_node d) = Ok true).
  { unfold sol_swapop_mutable.
    assert (E1 : is_type "BinaryOperation" (md_node d) = true)
      by (apply is_type_spec; unfold is_sol; rewrite <- T by discriminate; exact Et).
    assert (E2 : get_str (md_node d) "operator" = Some op)
      by (apply get_str_Some; [plain|]; apply T; [discriminate|discriminate|exact Ho]).
    rewrite E1, E2. f_equal. now apply smem_In'. }
  split; [exact Hm'|]. intros H'.
  pose proof (sol_swapop_fact _ _ _ _ _ Hm' H') as (op' & b' & a' & _ & _ & _ & Hb' & Ha' & H2').
  assert (b' = b /\ a' = a).
  { destruct H2 as (o & o1 & -> & E & _ & A1 & B1 & _). rewrite E in *. unfold has_field in *. simpl in *.
    split; congruence. }
  destruct H0 as (-> & ->).
  exact (two_fields_back "leftExpression" a "rightExpression" b n _ _ Hw ltac:(discriminate) Ha Hb H2 H2').
Qed.

Lemma vy_swapop_twice e fuel n r d fuel' r' d' a b :
  wf n -> vy_swapop_mutable n = Ok true -> vy_swapop_mutate e fuel n r = Ok d ->
  has_field n "left" a -> has_field n "right" b -> ~ is_vy "BoolOp" n ->
  vy_swapop_mutable (md_node d) = Ok true /\
  (vy_swapop_mutate e fuel' (md_node d) r' = Ok d' -> md_node d' = n).
Proof.
  intros Hw Hm H Ha Hb Hnb. pose proof (vy_swapop_fact _ _ _ _ _ a b Hm H Ha Hb Hnb) as (Et & H2).
  assert (T : forall k v, k <> "left" -> k <> "right" -> (has_field n k v <-> has_field (md_node d) k v)).
  { intros k v K1 K2. eapply two_fields_other; eauto. }
  assert (Hm' : vy_swapop_mutable (md_node d) = Ok true).
  { apply vy_swapop_iff. apply vy_swapop_iff in Hm. destruct Hm as (A & op & t & B & C & D).
    split; [unfold is_vy in *; rewrite <- !T by discriminate; exact A|].
    exists op, t. rewrite <- T by discriminate. auto. }
  split; [exact Hm'|]. intros H'.
  assert (Hf : has_field (md_node d) "left" b /\ has_field (md_node d) "right" a).
  { destruct H2 as (o & o1 & -> & E & _ & A1 & B1 & _). rewrite E. split; assumption. }
  destruct Hf as (Hl & Hr).
  assert (Hnb' : ~ is_vy "BoolOp" (md_node d)) by (unfold is_vy in *; rewrite <- T by discriminate; exact Hnb).
  pose proof (vy_swapop_fact _ _ _ _ _ b a Hm' H' Hl Hr Hnb') as (_ & H2').
  exact (two_fields_back "left" a "right" b n _ _ Hw ltac:(discriminate) Ha Hb H2 H2').
Qed.

(** ** Integer literals *)
Lemma parse_i64_show_Z z : in_i64 z = true -> parse_i64 (show_Z z) = Some z.
Proof.
  intros H. apply in_i64_spec in H. destruct z as [|q|q].
  - reflexivity.
  - change (show_Z (Z.pos q)) with (show_N (N.pos q)). rewrite parse_i64_show by lia. reflexivity.
  - assert (E : show_Z (Z.neg q) = String "-" (show_N (N.pos q))) by reflexivity.
    rewrite E. unfold parse_i64. rewrite parse_show. change (2 ^ 63)%N with 9223372036854775808%N.
    destruct (N.leb_spec (N.pos q) 9223372036854775808); [reflexivity|lia].
Qed.

(** The two draws an integer mutation looks at. *)

Lemma sol_int_diff e fuel n r d :
  sol_int_mutable n = Ok true -> sol_int_mutate e fuel n r = Ok d ->
  exists old new, is_sol "Literal" n /\ has_field n "kind" (JStr "number") /\
    has_field n "value" (JStr old) /\ field_becomes "value" (JStr new) n (md_node d) /\
    (first_draw r 3 = 2%N /\ new = show_N (second_draw r) \/
     first_draw r 3 <> 2%N /\ new <> old).
Proof.
  intros Hm H. pose proof Hm as Hm'. apply sol_int_iff in Hm'. destruct Hm' as (Et & Ek & v & Hv & _).
  unfold sol_int_mutate in H. rewrite (rng_eta r) in H. rewrite next_mod_at in H by lia. cbn [bind] in H.
  change ((rstream r (rpos r) mod 2 ^ 64) mod 3)%N with (first_draw r 3) in H.
  assert (Hl : (first_draw r 3 < 3)%N) by (apply N.mod_lt; lia).
  assert (Hg : get_str n "value" = Some v) by (apply get_str_Some; [plain|exact Hv]). rewrite Hg in H.
  assert (Hs : forall dd v', (dd = 1 \/ dd = -1)%Z -> sol_int_shift (e_oc e) v dd = Ok v' -> v' <> v).
  { intros dd v' Hd Hs. unfold sol_int_shift in Hs. destruct (parse_i64 v) as [z|] eqn:Ez; [|discriminate].
    destruct (i64_add (e_oc e) z dd) as [z'| | |] eqn:Ea; cbn [bind] in Hs; try discriminate.
    apply ok_inj in Hs. subst v'. intros Heq.
    assert (Hz : in_i64 z = true) by (eapply parse_i64_range; eauto).
    assert (Hz' : in_i64 z' = true) by (eapply i64_add_in; eauto).
    assert (z' <> z) by (eapply i64_add_diff; eauto).
    pose proof (parse_i64_show_Z z' Hz') as P. rewrite Heq in P. congruence. }
  assert (Hc : first_draw r 3 = 0%N \/ first_draw r 3 = 1%N \/ first_draw r 3 = 2%N) by lia.
  exists v. destruct Hc as [E|[E|E]]; rewrite E in *.
  - change (N.eqb 0 0) with true in H. cbv iota in H.
    destruct (sol_int_shift (e_oc e) v 1) as [v'| | |] eqn:Ev; cbn [bind] in H; try discriminate.
    apply ok_inj in H. subst d. exists v'. split; [exact Et|]. split; [exact Ek|]. split; [exact Hv|].
    split; [eapply field_set; [plain|exact Hv]|]. right. split; [discriminate|]. apply (Hs 1%Z); [now left|exact Ev].
  - change (N.eqb 1 0) with false in H. cbv iota in H.
    destruct (sol_int_shift (e_oc e) v (-1)) as [v'| | |] eqn:Ev; cbn [bind] in H; try discriminate.
    apply ok_inj in H. subst d. exists v'. split; [exact Et|]. split; [exact Ek|]. split; [exact Hv|].
    split; [eapply field_set; [plain|exact Hv]|]. right. split; [discriminate|]. apply (Hs (-1)%Z); [now right|exact Ev].
  - unfold next_u64, draw, at_pos in H. cbn [rstream rpos bind] in H. apply ok_inj in H. subst d.
    eexists. split; [exact Et|]. split; [exact Ek|]. split; [exact Hv|].
    split; [eapply field_set; [plain|exact Hv]|]. left. split; [reflexivity|]. reflexivity.
Qed.

Lemma vy_int_diff e fuel n r d z :
  vy_int_mutable n = Ok true -> vy_int_mutate e fuel n r = Ok d ->
  has_field n "value" (jint z) -> in_i64 z = true ->
  exists z', is_vy "Int" n /\ in_i64 z' = true /\ field_becomes "value" (jint z') n (md_node d) /\
    (first_draw r 3 = 2%N /\ z' = u64_as_i64 (second_draw r) \/ first_draw r 3 <> 2%N /\ z' <> z).
Proof.
  intros Hm H Hv Hz. unfold vy_int_mutable in Hm. apply ok_inj in Hm. apply is_ast_spec in Hm.
  unfold vy_int_mutate in H. destruct (e_pp e n) as [s1| | |]; cbn [bind] in H; try discriminate.
  rewrite (rng_eta r) in H. rewrite next_mod_at in H by lia. cbn [bind] in H.
  change ((rstream r (rpos r) mod 2 ^ 64) mod 3)%N with (first_draw r 3) in H.
  assert (Hl : (first_draw r 3 < 3)%N) by (apply N.mod_lt; lia).
  pose proof Hv as Hv'. unfold has_field in Hv'. rewrite Hv' in H. rewrite (as_i64_jint z Hz) in H.
  assert (Hc : first_draw r 3 = 0%N \/ first_draw r 3 = 1%N \/ first_draw r 3 = 2%N) by lia.
  destruct Hc as [E|[E|E]]; rewrite E in *.
  - change (N.eqb 0 0) with true in H. cbv iota in H.
    destruct (i64_add (e_oc e) z 1) as [z'| | |] eqn:Ea; cbn [bind] in H; try discriminate.
    destruct (e_pp e _) as [s2| | |]; cbn [bind] in H; try discriminate.
    apply ok_inj in H. subst d. exists z'. split; [exact Hm|].
    split; [eapply i64_add_in; eauto|]. split; [eapply field_set; [plain|exact Hv]|].
    right. split; [discriminate|]. eapply i64_add_diff; eauto.
  - change (N.eqb 1 0) with false in H. cbv iota in H.
    destruct (i64_add (e_oc e) z (-1)) as [z'| | |] eqn:Ea; cbn [bind] in H; try discriminate.
    destruct (e_pp e _) as [s2| | |]; cbn [bind] in H; try discriminate.
    apply ok_inj in H. subst d. exists z'. split; [exact Hm|].
    split; [eapply i64_add_in; eauto|]. split; [eapply field_set; [plain|exact Hv]|].
    right. split; [discriminate|]. eapply i64_add_diff; eauto.
  - unfold next_u64, draw, at_pos in H. cbn [rstream rpos bind] in H.
    destruct (e_pp e _) as [s2| | |]; cbn [bind] in H; try discriminate. apply ok_inj in H. subst d.
    exists (u64_as_i64 (second_draw r)). split; [exact Hm|].
    split; [apply u64_as_i64_in; apply N.mod_lt; discriminate|].
    split; [eapply field_set; [plain|exact Hv]|]. left. split; reflexivity.
Qed.
