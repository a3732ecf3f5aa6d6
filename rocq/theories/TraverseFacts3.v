(** Proofs of the traversal properties in the vocabulary of SpecMutation.v. *)
From Coq Require Import String List NArith ZArith Bool Lia Arith.
From Verif Require Import Base Json Rng Permissions MutationType Traverse SpecTree SpecMutation
  TraverseFacts TraverseFacts2 OpCommon SolMutators VyMutators Comments Language.
Import ListNotations.
Open Scope list_scope.

Lemma same_shape_set_child i x j c :
  nth_error (children j) i = Some c -> same_shape j (set_child i x j).
Proof.
  destruct j; simpl; try (destruct i; discriminate); intros H.
  - now rewrite length_replace_at.
  - clear H. revert i; induction o as [|[k y] o IH]; intros i; simpl; [destruct i; reflexivity|].
    destruct i; simpl; [reflexivity|]. now rewrite <- IH.
Qed.

Lemma set_subtree_replaced p x ast n :
  subtree p ast = Some n -> replaced_at p x ast (set_subtree p x ast).
Proof.
  intros H. split; [eapply subtree_set_subtree_same; eauto|]. split.
  - intros q (H1 & H2). apply subtree_set_subtree_other; auto.
  - intros q i r ->. revert ast H; induction q as [|k q IH]; intros ast H; simpl in *.
    + destruct (nth_error (children ast) i) as [c|] eqn:E; [|discriminate].
      eexists _, _. split; [reflexivity|]. split; [reflexivity|]. eapply same_shape_set_child; eauto.
    + destruct (nth_error (children ast) k) as [c|] eqn:E; [|discriminate].
      destruct (IH c H) as (a & a' & Ha & Ha' & Hs). exists a, a'. split; [exact Ha|].
      rewrite children_set_child, nth_error_replace_at_eq; [auto|]. apply nth_error_Some; congruence.
Qed.

Lemma same_shape_children a b :
  same_shape a b -> length (children a) = length (children b) /\
  (children b = children a -> b = a).
Proof.
  destruct a as [| | | |l|o], b as [| | | |l'|o']; simpl; try tauto; intros H.
  - split; [exact H|]. congruence.
  - split; [rewrite !map_length, <- (map_length fst o), H, map_length; reflexivity|].
    intros Hs. f_equal. revert o' H Hs; induction o as [|[k v] o IH]; intros [|[k' v'] o'];
      simpl; intros H Hs; inversion H; inversion Hs; subst; f_equal; auto.
Qed.

Lemma subtree_app p q j : subtree (p ++ q) j = match subtree p j with Some c => subtree q c | None => None end.
Proof.
  revert j; induction p as [|i p IH]; intros j; simpl; [reflexivity|].
  destruct (nth_error (children j) i); auto.
Qed.

Lemma nth_ext_opt {A} (l l' : list A) : (forall i, nth_error l i = nth_error l' i) -> l = l'.
Proof.
  revert l'; induction l as [|x l IH]; intros [|y l'] H; auto.
  - specialize (H 0); discriminate.
  - specialize (H 0); discriminate.
  - f_equal; [specialize (H 0); simpl in H; congruence|]. apply IH. intros i. apply (H (S i)).
Qed.

(** The specification [replaced_at] pins the result down. *)
Lemma replaced_at_unique p x ast ast' n :
  subtree p ast = Some n -> replaced_at p x ast ast' -> ast' = set_subtree p x ast.
Proof.
  revert ast ast'; induction p as [|i p IH]; intros ast ast' Hp (H1 & H2 & H3).
  { simpl in *. congruence. }
  simpl in *. destruct (nth_error (children ast) i) as [c|] eqn:E; [|discriminate].
  destruct (H3 [] i p eq_refl) as (a & a' & Ha & Ha' & Hs). simpl in Ha, Ha'.
  inversion Ha; inversion Ha'; subst a a'; clear Ha Ha'.
  destruct (same_shape_children _ _ Hs) as (Hlen & Heq).
  destruct (nth_error (children ast') i) as [c'|] eqn:E'; [|discriminate].
  assert (Hc : c' = set_subtree p x c).
  { apply IH; [exact Hp|]. split; [exact H1|]. split.
    - intros q (Q1 & Q2). specialize (H2 (i :: q)). simpl in H2. rewrite E, E' in H2. apply H2.
      split; intros r Hr; inversion Hr; [apply (Q1 r)|apply (Q2 r)]; auto.
    - intros q k r Hq. destruct (H3 (i :: q) k r) as (a & a' & Ha & Ha' & Hs'); [simpl; congruence|].
      simpl in Ha, Ha'. rewrite E in Ha; rewrite E' in Ha'. eauto. }
  assert (Hch : children ast' = children (set_child i (set_subtree p x c) ast)).
  { apply nth_ext_opt. intros k. rewrite children_set_child. destruct (Nat.eq_dec k i) as [->|Hk].
    - rewrite nth_error_replace_at_eq; [congruence|]. apply nth_error_Some; congruence.
    - rewrite nth_error_replace_at_neq by auto.
      specialize (H2 [k]). simpl in H2.
      assert (U : unrelated (i :: p) [k]).
      { split; intros r Hr; inversion Hr; congruence. }
      specialize (H2 U). destruct (nth_error (children ast') k), (nth_error (children ast) k); congruence. }
  pose proof (same_shape_set_child i (set_subtree p x c) ast c E) as Hs2.
  assert (Hs3 : same_shape ast' (set_child i (set_subtree p x c) ast)).
  { destruct ast, ast'; simpl in Hs, Hs2 |- *; try tauto; try congruence. }
  symmetry. apply (same_shape_children _ _ Hs3). symmetry; exact Hch.
Qed.

Lemma acts_at_select ps idm m fuel i ast r p n :
  (forall p n, In (p, n) (fst (allowed ps false ast)) -> exists b, mu_mutable m n = Ok b) ->
  nth_error (sel m (fst (allowed ps false ast))) i = Some (p, n) ->
  acts_at ps idm m fuel i ast r p.
Proof.
  intros Ht Hn. pose proof (make_mutation_select ps idm m fuel i ast r Ht) as H. rewrite Hn in H.
  assert (Hi : In (p, n) (sel m (fst (allowed ps false ast)))) by (eapply nth_error_In; eauto).
  unfold sel in Hi. apply filter_In in Hi. destruct Hi as (Hi & Ha). simpl in Ha.
  pose proof (allowed_subtree _ _ _ _ _ Hi) as Hp.
  exists n. split; [exact Hp|]. split.
  { destruct (Ht _ _ Hi) as (b & Hb). unfold accepts in Ha. rewrite Hb in Ha. congruence. }
  destruct (mu_mutate m fuel n r) as [d| | |]; auto.
  destruct H as (s & H & (_ & A & B & _ & C)). eexists _, s. split; [exact H|].
  split; [eapply set_subtree_replaced; eauto|]. simpl in *. auto.
Qed.

(** ** C01 *)
Lemma local_lemma ps idm m fuel i ast r ast' s :
  make_mutation ps idm m fuel i ast r = Ok (ast', s) ->
  (ast' = ast /\ mk_comment s = None /\ mk_result s = empty_result) \/
  (exists p n d, subtree p ast = Some n /\ mu_mutable m n = Ok true /\
     mu_mutate m fuel n r = Ok d /\ replaced_at p (md_node d) ast ast' /\
     mk_comment s = md_comment d /\ mk_result s = md_result d).
Proof.
  intros H. apply make_mutation_local in H.
  destruct H as [(A & B & C & _)|(p & n & d & A & _ & B & C & -> & D & E & _)]; [left; auto|right].
  exists p, n, d. repeat split; auto; eapply set_subtree_replaced; eauto.
Qed.

(** ** C02, C03 *)
Lemma select_lemma ps ms ast c t m :
  count_mutable_nodes ps ms ast = Ok c -> NoDup (map fst ms) -> In (t, m) ms ->
  exists counted : list path,
    subseq counted (positions ast) /\ NoDup counted /\
    length counted = reported t c /\
    (forall idm fuel i r p, nth_error counted i = Some p -> acts_at ps idm m fuel i ast r p) /\
    (forall idm fuel i r, length counted <= i ->
       exists s, make_mutation ps idm m fuel i ast r = Ok (ast, s) /\
                 mk_comment s = None /\ mk_result s = empty_result /\ mk_rng s = r).
Proof.
  intros Hc Hn Hi. rewrite count_mutable_nodes_eq in Hc.
  destruct (count_all_in _ _ _ _ _ _ Hc Hn Hi) as (Htot & Hnum & _).
  set (a := fst (allowed ps false ast)) in *.
  exists (map fst (sel m a)).
  assert (Hsub : subseq (map fst (sel m a)) (positions ast)).
  { eapply subseq_trans; [apply subseq_map, subseq_filter|]. apply allowed_positions. }
  assert (Ht : forall p n, In (p, n) a -> exists b, mu_mutable m n = Ok b).
  { intros p n Hp. apply Htot. apply in_map_iff. exists (p, n); auto. }
  split; [exact Hsub|]. split; [eapply subseq_NoDup; [exact Hsub|apply positions_NoDup]|].
  split.
  { rewrite map_length. unfold reported. unfold ct_num in Hnum at 1. rewrite Hnum. simpl. unfold sel.
    clear. induction a as [|[p n] a IH]; simpl; [reflexivity|]. destruct (accepts m n); simpl; auto. }
  split.
  - intros idm fuel i r p Hp. rewrite nth_error_map in Hp.
    destruct (nth_error (sel m a) i) as [[p' n]|] eqn:E; [|discriminate].
    simpl in Hp. inversion Hp; subst. eapply acts_at_select; eauto.
  - intros idm fuel i r Hle. rewrite map_length in Hle. apply nth_error_None in Hle.
    pose proof (make_mutation_select ps idm m fuel i ast r Ht) as H.
    unfold a in Hle. rewrite Hle in H. destruct H as (s & H & (_ & A & B & _ & C)).
    exists s. simpl in *. auto.
Qed.

Lemma out_of_range_lemma ps ms ast c t m :
  count_mutable_nodes ps ms ast = Ok c -> NoDup (map fst ms) -> In (t, m) ms ->
  forall idm fuel i r, reported t c <= i ->
       exists s, make_mutation ps idm m fuel i ast r = Ok (ast, s) /\
                 mk_comment s = None /\ mk_result s = empty_result /\ mk_rng s = r.
Proof.
  intros Hc Hn Hi idm fuel i r Hle.
  destruct (select_lemma _ _ _ _ _ _ Hc Hn Hi) as (l & _ & _ & Hl & _ & H). apply H. lia.
Qed.

Lemma mm_get_In t ms m : mm_get t ms = Some m -> In (t, m) ms.
Proof.
  induction ms as [|[t' m'] ms IH]; simpl; [discriminate|].
  destruct (mt_eqb t t') eqn:E; [|auto]. apply mt_eqb_eq in E. intros H; inversion H; subst. auto.
Qed.

Lemma out_of_range_mutate_ast L ps ms pm ast c t m :
  count_mutable_nodes ps ms ast = Ok c -> NoDup (map fst ms) -> mm_get t ms = Some m ->
  forall fuel i r, reported t c <= i ->
    mutate_ast L ps ms pm fuel ast t i r =
    Ok (ast, {| mr_type := None; mr_index := Some i; mr_node := None; mr_hash := None |}, r).
Proof.
  intros Hc Hn Hg fuel i r Hle. unfold mutate_ast. rewrite Hg.
  destruct (out_of_range_lemma _ _ _ _ _ _ Hc Hn (mm_get_In _ _ _ Hg) (l_id L) fuel i r Hle)
    as (s & -> & A & B & C). cbn [bind]. rewrite A, B, C. reflexivity.
Qed.

(** ** C04 *)
Lemma named_in_spec names n : named_in names n = true <-> exists f, name_of n = Some f /\ In f names.
Proof.
  unfold named_in. destruct (name_of n) as [s|].
  - rewrite smem_In. split; [eauto|]. intros (f & E & H). inversion E; subst. exact H.
  - split; [discriminate|]. intros (f & E & _). discriminate.
Qed.

Lemma restriction_sound names idm m fuel i ast r ast' s :
  names <> [] ->
  make_mutation (permissions_for_functions names) idm m fuel i ast r = Ok (ast', s) ->
  ast' = ast \/
  exists p n d, subtree p ast = Some n /\ mu_mutate m fuel n r = Ok d /\
    replaced_at p (md_node d) ast ast' /\ inside_named names ast p.
Proof.
  intros Hne H. apply make_mutation_local in H.
  destruct H as [(-> & _)|(p & n & d & A & Hin & _ & C & -> & _)]; [left; auto|right].
  exists p, n, d. split; [exact A|]. split; [exact C|]. split; [eapply set_subtree_replaced; eauto|].
  destruct (allowed_sound _ _ _ _ _ Hin) as [Habs|(x & Hx & Hm)]; [discriminate|].
  exists x. rewrite functions_may_mutate, functions_may_mutate_children in Hm by exact Hne.
  assert (Hm' : named_in names x = true) by tauto. apply named_in_spec in Hm'.
  destruct Hm' as (f & Hf & Hi). eauto.
Qed.

(** ** C05 (partial) *)
Lemma restriction_complete names ms ast c t m :
  names <> [] -> not_nested names ast ->
  count_mutable_nodes (permissions_for_functions names) ms ast = Ok c ->
  NoDup (map fst ms) -> In (t, m) ms ->
  forall p, inside_named names ast p -> accepted_at m ast p = true ->
  exists i, i < reported t c /\
    forall idm fuel r, acts_at (permissions_for_functions names) idm m fuel i ast r p.
Proof.
  intros Hne Hnest Hc Hnd Hi p (x & f & Hx & Hf & Hfi) Hacc.
  unfold accepted_at in Hacc. destruct (subtree p ast) as [n|] eqn:Hp; [|discriminate].
  rewrite count_mutable_nodes_eq in Hc.
  destruct (count_all_in _ _ _ _ _ _ Hc Hnd Hi) as (Htot & Hnum & _).
  set (ps := permissions_for_functions names) in *.
  set (a := fst (allowed ps false ast)) in *.
  assert (Ht : forall p n, In (p, n) a -> exists b, mu_mutable m n = Ok b).
  { intros q k Hq. apply Htot. apply in_map_iff. exists (q, k); auto. }
  assert (Hin : In (p, n) a).
  { destruct (allowed_functions_complete ps ast) with (skip := false) as (_ & Hall).
    - intros k. apply functions_may_visit.
    - intros k. unfold ps. rewrite functions_may_mutate, functions_may_mutate_children; auto.
    - intros k. unfold ps. rewrite functions_may_mutate, functions_may_mutate_children; auto.
    - intros q q' y y' Hq Hy Hne' Hy'. unfold ps in *. rewrite functions_may_mutate_children in * by auto.
      apply named_in_spec in Hy. destruct Hy as (g & Hg & Hgi).
      destruct (named_in names y') eqn:E; [|reflexivity]. exfalso.
      apply named_in_spec in E. destruct E as (g' & Hg' & Hgi').
      exact (Hnest q q' y y' g g' Hq Hg Hgi Hne' Hy' Hg' Hgi').
    - discriminate.
    - apply Hall; [exact Hp|]. right. exists x. split; [exact Hx|].
      unfold ps. rewrite functions_may_mutate_children by auto. apply named_in_spec. eauto. }
  assert (Hs : In (p, n) (sel m a)).
  { unfold sel. apply filter_In. split; [exact Hin|]. exact Hacc. }
  apply In_nth_error in Hs. destruct Hs as (i & Hn).
  exists i. split.
  - assert (i < length (sel m a)) by (apply nth_error_Some; congruence).
    unfold reported. unfold ct_num in Hnum at 1. rewrite Hnum. simpl.
    replace (length (filter (accepts m) (map snd a))) with (length (sel m a)); [exact H|].
    unfold sel. clear. induction a as [|[p n] a IH]; simpl; [reflexivity|].
    destruct (accepts m n); simpl; auto.
  - intros idm fuel r. eapply acts_at_select; eauto.
Qed.

(** ** C06 *)
Lemma length_filter_positions m ast :
  length (filter (accepts m) (map snd (all_nodes ast))) = length (filter (accepted_at m ast) (positions ast)).
Proof.
  unfold all_nodes, accepted_at. induction (positions ast) as [|p l IH]; simpl; [reflexivity|].
  destruct (subtree p ast) as [n|]; simpl; [|exact IH].
  unfold accepts at 1. destruct (mu_mutable m n) as [[]| | |]; simpl; auto.
Qed.

Lemma unrestricted_lemma ms ast c :
  count_mutable_nodes (permissions_for_functions []) ms ast = Ok c -> NoDup (map fst ms) ->
  (forall t m, In (t, m) ms ->
     ct_get t c = match length (filter (accepted_at m ast) (positions ast)) with
                  | 0 => None
                  | S k => Some (S k)
                  end) /\
  (forall t, ~ In t (map fst ms) -> ct_get t c = None).
Proof.
  intros Hc Hnd. rewrite count_mutable_nodes_eq in Hc.
  rewrite (allowed_everything _ false ast) in Hc;
    [|intros; apply functions_may_visit|intros; apply unrestricted_may_mutate].
  split.
  - intros t m Hi. destruct (count_all_in _ _ _ _ _ _ Hc Hnd Hi) as (_ & Hnum & _ & H1 & H2).
    simpl in *. rewrite <- length_filter_positions.
    destruct (filter (accepts m) (map snd (all_nodes ast))) as [|y l]; simpl in *.
    + apply H2; reflexivity.
    + unfold ct_num in Hnum. destruct (ct_get t c) as [k|]; [congruence|].
      exfalso. specialize (H1 eq_refl eq_refl). discriminate.
  - intros t Hn. rewrite (count_all_notin _ _ _ _ _ Hc Hn). reflexivity.
Qed.

(** Counting does not fail unless an operator fails to classify a node. *)
Lemma count_all_total ms ns c :
  (forall t m n, In (t, m) ms -> In n ns -> exists b, mu_mutable m n = Ok b) ->
  exists c', count_all ms ns c = Ok c'.
Proof.
  intros H. revert c. induction ns as [|n ns IH]; intros c; simpl; [eauto|].
  assert (E : exists c', count_node ms n c = Ok c').
  { clear IH. revert c. assert (Hm : forall t m, In (t, m) ms -> exists b, mu_mutable m n = Ok b).
    { intros t m Hi. apply (H t m n); simpl; auto. } clear H.
    induction ms as [|[t m] ms IHm]; intros c; simpl; [eauto|].
    destruct (Hm t m) as (b & Hb); [now left|]. rewrite Hb. simpl. apply IHm. intros t' m' Hi. apply (Hm t' m'). now right. }
  destruct E as (c' & ->). simpl. apply IH. intros t m n' Hi Hn. apply (H t m n'); simpl; auto.
Qed.

(** The table does not depend on the order of the mutator map. *)
Lemma count_order_lemma ps ms ms' ast c c' :
  count_mutable_nodes ps ms ast = Ok c -> count_mutable_nodes ps ms' ast = Ok c' ->
  NoDup (map fst ms) -> NoDup (map fst ms') -> (forall x, In x ms <-> In x ms') ->
  forall t, ct_get t c = ct_get t c'.
Proof.
  rewrite !count_mutable_nodes_eq. intros H H' Hn Hn' Hin t.
  destruct (in_dec mutation_type_eq_dec t (map fst ms)) as [Hi|Hi].
  - apply in_map_iff in Hi. destruct Hi as ([t0 m] & Ht & Hi). simpl in Ht; subst t0.
    destruct (count_all_in _ _ _ _ _ _ H Hn Hi) as (_ & A & _ & A1 & A2).
    apply Hin in Hi. destruct (count_all_in _ _ _ _ _ _ H' Hn' Hi) as (_ & B & _ & B1 & B2).
    unfold ct_num in *. simpl in *.
    destruct (filter (accepts m) _) as [|y l]; simpl in *.
    + rewrite A2, B2; auto.
    + destruct (ct_get t c) as [k|]; [|exfalso; specialize (A1 eq_refl eq_refl); discriminate].
      destruct (ct_get t c') as [k'|]; [|exfalso; specialize (B1 eq_refl eq_refl); discriminate].
      congruence.
  - rewrite (count_all_notin _ _ _ _ _ H Hi). rewrite (count_all_notin _ _ _ _ _ H'); [reflexivity|].
    intros Hi'. apply Hi. apply in_map_iff in Hi'. destruct Hi' as ([t0 m] & Ht & Hi'). simpl in Ht; subst.
    apply in_map_iff. exists (t, m). split; [reflexivity|]. now apply Hin.
Qed.

(** ** C07 *)
Lemma paths_total ps idm ast : exists pm, calculate_node_paths ps idm ast = Ok pm.
Proof.
  unfold calculate_node_paths.
  destruct (path_total ps idm ast {| ps_map := []; ps_path := [] |}) as (s & ->). simpl. eauto.
Qed.

Lemma paths_sound ps idm ast pm id q :
  calculate_node_paths ps idm ast = Ok pm -> pm_get id pm = Some q ->
  exists p n, subtree p ast = Some n /\ idm n = Some id /\ q = id_chain idm p ast.
Proof.
  unfold calculate_node_paths. intros H Hg.
  destruct (traverse (path_visitor ps idm) ast _) as [[s st]| | |] eqn:E; simpl in H; try discriminate.
  inversion H; subst. apply path_correct in E. destruct E as (_ & _ & new & Hm & Hs & _).
  simpl in Hm. rewrite app_nil_r in Hm. apply pm_get_In in Hg. rewrite Hm in Hg.
  destruct (Hs _ _ Hg) as (p & n & A & B & C). exists p, n. auto.
Qed.

Lemma nodes_along_last p j n : subtree p j = Some n -> exists l, nodes_along p j = l ++ [n].
Proof.
  revert j; induction p as [|i p IH]; intros j; simpl.
  - intros H; inversion H; subst. exists []. reflexivity.
  - destruct (nth_error (children j) i) as [c|]; [|discriminate]. intros H.
    destruct (IH _ H) as (l & ->). exists (j :: l). reflexivity.
Qed.

Lemma id_chain_last idm p j n i :
  subtree p j = Some n -> idm n = Some i -> exists up, id_chain idm p j = up ++ [i].
Proof.
  intros H Hi. destruct (nodes_along_last _ _ _ H) as (l & Hl). unfold id_chain. rewrite Hl, flat_map_app.
  simpl. rewrite Hi. simpl. eauto.
Qed.

Lemma paths_complete ps idm ast pm p n id :
  (forall n, may_visit ps n = true) ->
  calculate_node_paths ps idm ast = Ok pm -> subtree p ast = Some n -> idm n = Some id ->
  (forall p' n', subtree p' ast = Some n' -> idm n' = Some id -> p' = p) ->
  pm_get id pm = Some (id_chain idm p ast).
Proof.
  intros Hv H Hp Hid Hu. pose proof H as H0. unfold calculate_node_paths in H.
  destruct (traverse (path_visitor ps idm) ast _) as [[s st]| | |] eqn:E; simpl in H; try discriminate.
  inversion H; subst. apply path_correct in E. destruct E as (_ & _ & new & Hm & _ & Hc).
  simpl in Hm. rewrite app_nil_r in Hm.
  specialize (Hc Hv p n id Hp Hid). simpl in Hc. rewrite <- Hm in Hc.
  destruct (In_pm_get _ _ _ Hc) as (q' & Hq').
  destruct (paths_sound _ _ _ _ _ _ H0 Hq') as (p' & n' & A & B & ->).
  rewrite (Hu _ _ A B) in Hq'. exact Hq'.
Qed.
