(** Comment insertion and loss of code (C09). *)
From Coq Require Import String List NArith ZArith Bool Lia.
From Verif Require Import Base Json JsonFacts Rng Permissions MutationType Traverse OpCommon SolMutators
  VyMutators Comments Language SpecTree SpecMutation TraverseFacts TraverseFacts3 SpecOps OpFacts
  SpecComments CommentFacts Samples Witness.
Import ListNotations.
Open Scope string_scope.
Open Scope list_scope.

Lemma nothing_lost_refl a : nothing_lost a a.
Proof. intros ks x H _. exists ks. split; [exact H|apply subseq_refl]. Qed.

Lemma nothing_lost_arr l l' : incl l l' -> nothing_lost (JArr l) (JArr l').
Proof.
  intros Hi ks x H Hx. exists ks. split; [|apply subseq_refl].
  inversion H; subst; [contradiction|]. eapply found_elem; eauto.
Qed.

Lemma nothing_lost_set p x y ast :
  subtree p ast = Some x -> nothing_lost x y -> nothing_lost ast (set_subtree p y ast).
Proof.
  intros Hp Hn. revert ast Hp. induction p as [|i p IH]; intros ast Hp; simpl in *.
  { injection Hp as ->. exact Hn. }
  destruct (nth_error (children ast) i) as [w|] eqn:Ew; [|discriminate].
  specialize (IH w Hp). intros ks z Hf Hz.
  destruct ast as [| | | |l|o]; simpl in Ew; try (destruct i; discriminate); simpl.
  - inversion Hf as [|l0 y0 ks0 x0 H1 H2|]; subst; [contradiction|].
    apply In_nth_error in H1. destruct H1 as (e & He).
    destruct (Nat.eq_dec e i) as [->|Hne].
    + rewrite Ew in He. injection He as <-. destruct (IH ks z H2 Hz) as (ks' & H3 & H4).
      exists ks'. split; [|exact H4]. eapply found_elem; [|exact H3].
      eapply nth_error_In. apply nth_error_replace_at_eq. apply nth_error_Some. rewrite Ew. discriminate.
    + exists ks. split; [|apply subseq_refl]. eapply found_elem; [|exact H2].
      eapply nth_error_In. rewrite nth_error_replace_at_neq by exact Hne. exact He.
  - assert (HN : forall o i e k v, nth_error o e = Some (k, v) -> e <> i ->
               In (k, v) (set_value i (set_subtree p y w) o)).
    { clear. induction o as [|[k0 v0] o IH]; intros i e k v He Hne; [destruct e; discriminate|].
      destruct e, i; simpl in *; try congruence.
      - left. congruence.
      - right. eapply nth_error_In; eauto.
      - right. eapply IH; eauto. }
    assert (HS : forall o i k v, nth_error o i = Some (k, v) -> In (k, set_subtree p y w) (set_value i (set_subtree p y w) o)).
    { clear. induction o as [|[k0 v0] o IH]; intros i k v He; [destruct i; discriminate|].
      destruct i; simpl in *; [left; congruence|right; eapply IH; eauto]. }
    inversion Hf as [| |o0 k y0 ks0 x0 H1 H2]; subst; [contradiction|].
    apply In_nth_error in H1. destruct H1 as (e & He).
    destruct (Nat.eq_dec e i) as [->|Hne].
    + rewrite nth_error_map, He in Ew. simpl in Ew. injection Ew as ->.
      destruct (IH _ z H2 Hz) as (ks' & H3 & H4).
      exists (k :: ks'). split; [|now constructor]. eapply found_key; [|exact H3]. eapply HS; eauto.
    + exists (k :: ks0). split; [|apply subseq_refl]. eapply found_key; [|exact H2]. eapply HN; eauto.
Qed.

Lemma before_first_incl idm id c l l' : before_first idm id c l l' -> incl l l'.
Proof.
  intros (l1 & x & l2 & -> & -> & _). intros y. rewrite !in_app_iff. simpl. tauto.
Qed.

Lemma vy_comment_keeps ast c path :
  nothing_lost ast (insert_comment_by_path vy_id vy_member vy_insert ast c path).
Proof.
  destruct (vy_comment_lemma ast c path)
    as [(outer & up & inner & p & n & q & l & l' & _ & _ & _ & _ & Hb & Hr & Hs & _)|(-> & _)].
  - rewrite (replaced_at_unique _ _ _ _ _ Hs Hr). eapply nothing_lost_set; [exact Hs|].
    apply nothing_lost_arr. eapply before_first_incl; eauto.
  - apply nothing_lost_refl.
Qed.

Lemma sol_place_keeps id c n q x y : sol_place id c n q x y -> nothing_lost x y.
Proof.
  intros H. destruct H.
  - apply nothing_lost_arr. eapply before_first_incl; eauto.
  - apply nothing_lost_arr. eapply before_first_incl; eauto.
  - apply nothing_lost_arr. intros z. simpl. tauto.
  - intros ks z Hf Hz. exists ("statements" :: ks). split; [|constructor; apply subseq_refl].
    eapply found_key; [simpl; right; right; left; reflexivity|].
    eapply found_elem; [simpl; right; left; reflexivity|exact Hf].
Qed.

Lemma sol_comment_keeps ast c path :
  blocks_have_lists ast -> ~ mutated_branch (last path 0%N) ast ->
  nothing_lost ast (insert_comment_by_path sol_id sol_member sol_insert ast c path).
Proof.
  intros H1 H2. destruct (sol_comment_lemma ast c path H1 H2)
    as [(outer & up & inner & p & n & q & x & y & _ & _ & _ & Hpl & Hs & Hr & _)|(-> & _)].
  - rewrite (replaced_at_unique _ _ _ _ _ Hs Hr). eapply nothing_lost_set; [exact Hs|].
    eapply sol_place_keeps; eauto.
  - apply nothing_lost_refl.
Qed.

(** ** Deciding loss on concrete trees *)
Fixpoint scalars (j : json) : list (list string * json) :=
  match j with
  | JArr l => (fix go l := match l with [] => [] | x :: l => scalars x ++ go l end) l
  | JObj o => (fix go o := match o with
                           | [] => []
                           | (k, x) :: o => map (fun p => (k :: fst p, snd p)) (scalars x) ++ go o
                           end) o
  | _ => [([], j)]
  end.

Lemma found_scalars j ks x : found j ks x -> scalar x -> In (ks, x) (scalars j).
Proof.
  intros H Hx. induction H as [j|l y ks x Hy _ IH|o k y ks x Hy _ IH].
  - destruct j; simpl in *; try contradiction; auto.
  - specialize (IH Hx). simpl. induction l as [|z l IHl]; [contradiction|].
    apply in_or_app. destruct Hy as [->|Hy]; [left; exact IH|right; auto].
  - specialize (IH Hx). simpl. induction o as [|[k' z] o IHo]; [contradiction|].
    apply in_or_app. destruct Hy as [E|Hy].
    + injection E as -> ->. left. apply in_map_iff. exists (ks, x). auto.
    + right. auto.
Qed.

Lemma scalars_found j ks x : In (ks, x) (scalars j) -> found j ks x.
Proof.
  revert ks x. induction j using json_ind'; intros ks z0; simpl;
    try (intros [E|[]]; injection E as <- <-; apply found_here).
  - intros Hin. assert (G : exists y, In y l /\ found y ks z0).
    { induction H as [|y l Hy HF IH]; [contradiction|]. apply in_app_or in Hin. destruct Hin as [Hin|Hin].
      - exists y. split; [now left|auto].
      - destruct (IH Hin) as (z & Hz & Hfz). exists z. split; [now right|exact Hfz]. }
    destruct G as (y & Hy & Hfy). eapply found_elem; eauto.
  - intros Hin. assert (G : exists k y ks', In (k, y) o /\ ks = k :: ks' /\ found y ks' z0).
    { induction H as [|[k y] o Hy HF IH]; [contradiction|]. apply in_app_or in Hin. destruct Hin as [Hin|Hin].
      - apply in_map_iff in Hin. destruct Hin as ((ks' & x') & E & Hin). simpl in E. injection E as <- <-.
        exists k, y, ks'. split; [now left|]. split; [reflexivity|]. now apply Hy.
      - destruct (IH Hin) as (k' & z & ks' & Hz & Hfz). exists k', z, ks'. split; [now right|exact Hfz]. }
    destruct G as (k & y & ks' & Hy & -> & Hfy). eapply found_key; eauto.
Qed.

Fixpoint subseqb (a b : list string) : bool :=
  match b with
  | [] => match a with [] => true | _ => false end
  | y :: b => match a with
              | [] => true
              | x :: a' => (if x =?s y then subseqb a' b else false) || subseqb a b
              end
  end%bool.

Lemma subseqb_complete a b : subseq a b -> subseqb a b = true.
Proof.
  intros H. induction H as [b|x a b _ IH|y a b _ IH].
  - destruct b; reflexivity.
  - simpl. rewrite String.eqb_refl, IH. reflexivity.
  - simpl. destruct a as [|x a]; [reflexivity|]. rewrite IH. apply orb_true_r.
Qed.

(** Some string is not found any more under its keys. *)
Definition loses (b : json) (ks : list string) (s : string) : bool :=
  negb (existsb (fun p => match snd p with JStr s' => (s' =?s s) && subseqb ks (fst p) | _ => false end)
          (scalars b)).

Lemma loses_correct a b ks s : loses b ks s = true -> found a ks (JStr s) -> ~ nothing_lost a b.
Proof.
  intros Hl Hf Hn. destruct (Hn ks (JStr s) Hf I) as (ks' & H1 & H2).
  apply found_scalars in H1; [|exact I]. unfold loses in Hl. apply negb_true_iff in Hl.
  assert (Hx : existsb (fun p => match snd p with JStr s' => (s' =?s s) && subseqb ks (fst p) | _ => false end)
            (scalars b) = true).
  { apply existsb_exists. exists (ks', JStr s). split; [exact H1|]. simpl.
    rewrite String.eqb_refl. now apply subseqb_complete. }
  congruence.
Qed.

(** contract C { function f() { if (c) { x = a + b; y = a * b; } } }, the two
    statements of the branch swapped. *)
Definition branch_unit : json := s_unit 1 [ s_contract 2 "C"
  [ s_fun 10 "f" (s_block 11
      [ s_if 40 (s_ident 41 "c")
          (s_block 42 [ s_stmt 12 (s_assign 120 "uint8" (s_ident 121 "x") sum_ab);
                        s_stmt 22 (s_assign 220 "uint8" (s_ident 221 "y") mul_ab) ]) JNull ]) ] ].

Definition branch_keys : list string :=
  ["nodes"; "nodes"; "body"; "statements"; "trueBody"; "statements"; "expression"; "leftHandSide"; "name"].

Definition the_map (L : lang) (t : mutation_type) : mutator_map := select_mutators L [t] [].

(** Whole runs: the mutant before and after the comment is inserted. *)
Definition before_comment (L : lang) (t : mutation_type) (i : nat) (ast : json) (r : rng) : res json :=
  match mm_get t (the_map L t) with
  | Some m => let? (a, _) := make_mutation ex_all (l_id L) m 10 i ast r in Ok a
  | None => Err "no such operator"
  end.
Definition after_comment (L : lang) (t : mutation_type) (i : nat) (ast : json) (r : rng) : res json :=
  let? pm := calculate_node_paths ex_all (l_id L) ast in
  let? (a, _, _) := mutate_ast L ex_all (the_map L t) pm 10 ast t i r in Ok a.

Definition get_ok (r : res json) : json := match r with Ok j => j | _ => JNull end.

Lemma branch_lost :
  let L := solidity ex_env in
  exists ast t i r a b, before_comment L t i ast r = Ok a /\ after_comment L t i ast r = Ok b /\
    ~ nothing_lost a b /\
    (exists p n, subtree p a = Some n /\ is_sol "IfStatement" n /\ oget n "trueBody" <> Some JNull) /\
    (forall p n, subtree p b = Some n -> is_sol "IfStatement" n -> oget n "trueBody" = Some JNull).
Proof.
  cbv zeta. exists branch_unit, (Generic SwapLines), 0, ex_rng.
  set (a := get_ok (before_comment (solidity ex_env) (Generic SwapLines) 0 branch_unit ex_rng)).
  set (b := get_ok (after_comment (solidity ex_env) (Generic SwapLines) 0 branch_unit ex_rng)).
  exists a, b. split; [vm_compute; reflexivity|]. split; [vm_compute; reflexivity|]. split.
  - eapply (loses_correct _ _ branch_keys "x"); [vm_compute; reflexivity|].
    apply scalars_found. vm_compute. tauto.
  - split.
    + exists [2; 0; 3; 0; 0; 2; 0]. eexists. split; [vm_compute; reflexivity|].
      split; vm_compute; [reflexivity|discriminate].
    + assert (H : forallb (fun n => match oget n "nodeType" with
                                    | Some (JStr s) => if s =?s "IfStatement" then
                                        match oget n "trueBody" with Some JNull => true | _ => false end
                                      else true
                                    | _ => true
                                    end) (subtrees b) = true) by (vm_compute; reflexivity).
      rewrite forallb_forall in H. intros p n Hp Hn. specialize (H n (subtrees_In _ _ _ Hp)).
      unfold is_sol, has_field in Hn. rewrite Hn in H. simpl in H.
      destruct (oget n "trueBody") as [[]|]; try discriminate. reflexivity.
Qed.

(** ** Deciding the hypotheses on concrete trees *)
Definition has_statements (b : json) : bool :=
  match oget b "nodeType" with
  | Some (JStr s) => if s =?s "Block" then
      match oget b "statements" with Some (JArr _) => true | _ => false end else true
  | _ => true
  end.
Lemma blocks_have_lists_check ast : forallb has_statements (subtrees ast) = true -> blocks_have_lists ast.
Proof.
  rewrite forallb_forall. intros H p b Hp Hb. specialize (H b (subtrees_In _ _ _ Hp)).
  unfold has_statements in H. unfold is_sol, has_field in Hb. rewrite Hb in H. simpl in H.
  destruct (oget b "statements") as [[]|] eqn:E; try discriminate.
  apply field_at_oget in E. destruct E as (i & Hi). eauto.
Qed.

Definition not_branch (id : N) (n : json) : bool :=
  forallb (fun k => match oget n k with
                    | Some b => match sol_id b with Some i => negb (N.eqb i id) | None => true end
                    | None => true
                    end) ["trueBody"; "falseBody"; "block"].
Lemma mutated_branch_check id ast : forallb (not_branch id) (subtrees ast) = true -> ~ mutated_branch id ast.
Proof.
  rewrite forallb_forall. intros H (p & n & i & k & b & Hp & Hk & Hi & _ & Hid).
  specialize (H n (subtrees_In _ _ _ Hp)). unfold not_branch in H. rewrite forallb_forall in H.
  specialize (H k Hk).
  assert (E : oget n k = Some b) by (apply field_at_oget; eauto).
  rewrite E, Hid, N.eqb_refl in H. discriminate.
Qed.

(** ** The comment put beside the branch it should go into (C08) *)
Lemma place_holds id c n q x y : sol_place id c n q x y ->
  exists p, subtree p y = Some c /\ (length p = 1 \/ length p = 2).
Proof.
  intros H. destruct H.
  - destruct H2 as (l1 & z & l2 & _ & -> & _). exists [length l1]. cbn [subtree].
    unfold children. rewrite nth_error_app2 by lia. rewrite Nat.sub_diag. simpl. auto.
  - destruct H5 as (l1 & z & l2 & _ & -> & _). exists [length l1]. cbn [subtree].
    unfold children. rewrite nth_error_app2 by lia. rewrite Nat.sub_diag. simpl. auto.
  - exists [0]. simpl. auto.
  - exists [2; 0]. simpl. auto.
Qed.

Definition noted (b : json) (p : path) : bool :=
  match subtree p b with
  | Some n => match oget n "name" with Some (JStr s) => s =?s "note" | _ => false end
  | None => false
  end.

Lemma comment_beside :
  exists ast c path,
  let ast' := insert_comment_by_path sol_id sol_member sol_insert ast c path in
  let id := last path 0%N in
  let lacks := homeless sol_id (fun n => exists q x y, sol_place id c n q x y) ast in
  blocks_have_lists ast /\
  (exists p n, subtree p ast = Some n /\ sol_id n = Some id) /\
  ~ ((exists outer up inner p n q x y, removelast path = outer ++ up :: inner /\
        subtree p ast = Some n /\ sol_id n = Some up /\
        sol_place id c n q x y /\ subtree (p ++ q) ast = Some x /\
        replaced_at (p ++ q) y ast ast' /\
        forall u, In u inner -> lacks u) \/
     (ast' = ast /\ forall u, In u (removelast path) -> lacks u)).
Proof.
  exists branch_unit, (s_ident 77 "note"), [1; 2; 10; 11; 40; 42]%N. cbv zeta.
  set (b := insert_comment_by_path _ _ _ _ _ _).
  split; [apply blocks_have_lists_check; vm_compute; reflexivity|]. split.
  { exists [2; 0; 3; 0; 0; 2; 0; 4]. eexists. split; [vm_compute; reflexivity|]. vm_compute. reflexivity. }
  intros [(outer & up & inner & p & n & q & x & y & _ & _ & _ & Hpl & _ & (Hy & _ & Hs) & _)|[E _]].
  - destruct (place_holds _ _ _ _ _ _ Hpl) as (r & Hr & Hlen).
    assert (Hc : subtree ((p ++ q) ++ r) b = Some (s_ident 77 "note"))
      by now rewrite (CommentFacts.subtree_app _ _ _ _ Hy).
    assert (Hin : In ((p ++ q) ++ r) (filter (noted b) (positions b))).
    { apply filter_In. split; [apply positions_subtree; eauto|]. unfold noted. now rewrite Hc. }
    assert (F : filter (noted b) (positions b) = [[2; 0; 3; 0; 0; 2; 0; 0; 2; 0]]) by (vm_compute; reflexivity).
    rewrite F in Hin. destruct Hin as [Hin|[]].
    assert (Hpq : exists i t, p ++ q = [2; 0; 3; 0; 0; 2; 0] ++ i :: t).
    { destruct r as [|r1 [|r2 [|]]]; cbn [length] in Hlen; try lia.
      - apply (f_equal (@removelast nat)) in Hin. rewrite removelast_last in Hin. rewrite <- Hin.
        exists 0, [2]. reflexivity.
      - change [r1; r2] with ([r1] ++ [r2]) in Hin. rewrite app_assoc in Hin.
        apply (f_equal (fun l => removelast (removelast l))) in Hin. rewrite !removelast_last in Hin.
        rewrite <- Hin. exists 0, []. reflexivity. }
    destruct Hpq as (i & t & Hpq). destruct (Hs _ _ _ Hpq) as (u & v & Hu & Hv & Huv).
    vm_compute in Hu. vm_compute in Hv. injection Hu as <-. injection Hv as <-. vm_compute in Huv.
    discriminate.
  - apply (f_equal (fun j => match subtree [2; 0; 3; 0; 0; 2; 0; 5] j with Some JNull => true | _ => false end)) in E.
    vm_compute in E. discriminate.
Qed.
