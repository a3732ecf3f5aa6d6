(** Locality of the maker, function restriction, node paths. *)
From Coq Require Import String List NArith ZArith Bool Lia Arith.
From Verif Require Import Base Json Rng Permissions MutationType Traverse SpecTree TraverseFacts.
Import ListNotations.
Open Scope list_scope.

(** ** Locality, without any totality assumption *)
Section Local.
  Variables (ps : permissions) (idm : json -> option N) (m : mutator) (fuel index : nat).
  Let V := maker_visitor ps idm m fuel index.

  (** The payload of the state, i.e. everything but index and skip flag. *)
  Definition same_payload (s s' : maker_state) : Prop :=
    mk_node_id s' = mk_node_id s /\ mk_comment s' = mk_comment s /\
    mk_result s' = mk_result s /\ mk_error s' = mk_error s /\ mk_rng s' = mk_rng s.

  Definition local_outcome (j : json) (s : maker_state) (j' : json) (s' : maker_state) (stop : bool) : Prop :=
    (stop = false /\ j' = j /\ same_payload s s' /\ mk_skip s' = snd (allowed ps (mk_skip s) j)) \/
    (stop = true /\ exists p n, In (p, n) (fst (allowed ps (mk_skip s) j)) /\ mu_mutable m n = Ok true /\
       ((exists d, mu_mutate m fuel n (mk_rng s) = Ok d /\ j' = set_subtree p (md_node d) j /\
                   same_payload (after_mutation idm s d) s') \/
        (exists e, mu_mutate m fuel n (mk_rng s) = Err e /\ mk_error s' = Some e))).

  Lemma same_payload_refl s : same_payload s s.
  Proof. repeat split. Qed.
  Lemma same_payload_trans a b c : same_payload a b -> same_payload b c -> same_payload a c.
  Proof. unfold same_payload. intuition congruence. Qed.
  Lemma same_payload_skip b s : same_payload s (with_skip b s).
  Proof. repeat split. Qed.

  Lemma same_payload_after s s1 s' d :
    same_payload s s1 -> same_payload (after_mutation idm s1 d) s' ->
    same_payload (after_mutation idm s d) s'.
  Proof.
    unfold same_payload, after_mutation; simpl. intros (A & B & C & D & E) (A' & B' & C' & D' & E').
    rewrite A in A'. auto.
  Qed.

  Lemma local_correct j : forall s j' s' stop,
    traverse_mut V j s = Ok (j', s', stop) -> local_outcome j s j' s' stop.
  Proof.
    induction j as [j IH] using json_children_ind. intros s j' s' stop.
    unfold local_outcome. rewrite allowed_unfold.
    rewrite traverse_mut_unfold. unfold V at 1. simpl vm_perm.
    destruct (may_visit ps j) eqn:Ev0.
    2:{ intros H; inversion H; subst. left. auto using same_payload_refl. }
    assert (HL : forall i s l' s' stop, traverse_mut_list V (children j) s = Ok (l', s', stop) ->
      (stop = false /\ l' = children j /\ same_payload s s' /\
         mk_skip s' = snd (allowed_list ps i (mk_skip s) (children j))) \/
      (stop = true /\ exists k c q n, nth_error (children j) k = Some c /\ subtree q c = Some n /\
         In ((i + k) :: q, n) (fst (allowed_list ps i (mk_skip s) (children j))) /\
         mu_mutable m n = Ok true /\
       ((exists d, mu_mutate m fuel n (mk_rng s) = Ok d /\
                   l' = replace_at k (set_subtree q (md_node d) c) (children j) /\
                   same_payload (after_mutation idm s d) s') \/
        (exists e, mu_mutate m fuel n (mk_rng s) = Err e /\ mk_error s' = Some e)))).
    { clear s j' s' stop. induction IH as [|x l Hx Hl IHl]; intros i s l' s' stop; simpl.
      - intros H; inversion H; subst. left. auto using same_payload_refl.
      - destruct (traverse_mut V x s) as [[[x' s1] st]| | |] eqn:Ex; simpl; try discriminate.
        apply Hx in Ex. unfold local_outcome in Ex. pose proof (allowed_subtree ps (mk_skip s) x) as Hsub.
        destruct (allowed ps (mk_skip s) x) as [a sk1]. simpl in Ex, Hsub. destruct st.
        + intros H; inversion H; subst. right. split; [reflexivity|].
          destruct Ex as [(Habs & _)|(_ & p & n & Hp & Hm & Hr)]; [discriminate|].
          exists 0, x, p, n. split; [reflexivity|]. split; [auto|].
          destruct (allowed_list ps (S i) sk1 l) as [b sk2]. simpl.
          split. { apply in_app_iff. left. apply in_map_iff. exists (p, n). split; [|exact Hp].
                   unfold shift; simpl. now rewrite Nat.add_0_r. }
          split; [exact Hm|].
          destruct Hr as [(d & Hd & -> & Hs)|Hr]; [left; exists d; auto|right; exact Hr].
        + destruct Ex as [(_ & -> & Hs & Hsk)|(Habs & _)]; [|discriminate].
          destruct (traverse_mut_list V l s1) as [[[l1 s2] st]| | |] eqn:El; simpl; try discriminate.
          intros H; inversion H; subst. apply (IHl (S i)) in El.
          destruct (allowed_list ps (S i) (mk_skip s1) l) as [b sk2]. simpl in *.
          destruct El as [(-> & -> & Hs2 & Hk2)|(-> & k & c & q & n & Hk & Hq & Hin & Hm & Hr)].
          * left. eauto using same_payload_trans.
          * right. split; [reflexivity|]. exists (S k), c, q, n. simpl. split; [exact Hk|]. split; [exact Hq|].
            split. { apply in_app_iff. right. now rewrite <- plus_n_Sm. }
            split; [exact Hm|].
            assert (Hrng : mk_rng s1 = mk_rng s) by (destruct Hs as (_ & _ & _ & _ & H0); exact H0).
            rewrite Hrng in Hr.
            destruct Hr as [(d & Hd & -> & Hs2)|(e & He & Hs2)]; [left; exists d|right; exists e]; auto.
            repeat split; auto; eapply same_payload_after; eauto. }
    (* the children part *)
    assert (HK : forall s1, same_payload s s1 -> mk_skip s1 = mk_skip s ->
      (let? (l', s3, stop) := traverse_mut_list V (children j)
                (if may_mutate_children ps j then with_skip true s1 else s1) in
           Ok (set_children j l',
               (if may_mutate_children ps (set_children j l') then with_skip false s3 else s3), stop))
      = Ok (j', s', stop) -> local_outcome j s j' s' stop).
    { intros s1 Hs1 Hsk1.
      destruct (traverse_mut_list V (children j) _) as [[[l1 s2] st]| | |] eqn:El; simpl; try discriminate.
      intros H; inversion H; subst; clear H. apply (HL 0) in El.
      unfold local_outcome. rewrite allowed_unfold, Ev0.
      set (s1' := if may_mutate_children ps j then with_skip true s1 else s1) in *.
      assert (Hsk' : (if may_mutate_children ps j then true else mk_skip s) = mk_skip s1').
      { unfold s1'. destruct (may_mutate_children ps j); [reflexivity|]. now rewrite Hsk1. }
      assert (Hs1' : same_payload s s1').
      { unfold s1'. destruct (may_mutate_children ps j); exact Hs1. }
      assert (Hend : forall l, same_payload s2 (if may_mutate_children ps (set_children j l) then with_skip false s2 else s2)).
      { intros l. match goal with |- context [if ?c then _ else _] => destruct c end;
        [apply same_payload_skip|apply same_payload_refl]. }
      cbv zeta. rewrite Hsk'.
      destruct (allowed_list ps 0 (mk_skip s1') (children j)) as [below sk2]. simpl in El.
      destruct El as [(-> & -> & Hs2 & Hk2)|(-> & k & c & q & n & Hk & Hq & Hin & Hm & Hr)].
      - left. rewrite set_children_same. split; [reflexivity|]. split; [reflexivity|]. split.
        + eapply same_payload_trans; [exact Hs1'|]. eapply same_payload_trans; [exact Hs2|].
          specialize (Hend (children j)). rewrite set_children_same in Hend. exact Hend.
        + destruct (may_mutate_children ps j); [reflexivity|exact Hk2].
      - right. split; [reflexivity|]. exists (k :: q), n.
        split. { simpl. apply in_app_iff. now right. }
        split; [exact Hm|].
        assert (Hrng : mk_rng s1' = mk_rng s) by (destruct Hs1' as (_ & _ & _ & _ & H0); exact H0).
        rewrite Hrng in Hr.
        destruct Hr as [(d & Hd & -> & Hs2)|(e & He & Hs2)].
        + left. exists d. split; [exact Hd|]. split.
          * simpl. rewrite Hk. rewrite set_child_set_children; auto. apply nth_error_Some; congruence.
          * eapply same_payload_after; [exact Hs1'|]. eapply same_payload_trans; [exact Hs2|apply Hend].
        + right. exists e. split; [exact He|]. specialize (Hend l1).
          destruct Hend as (_ & _ & _ & H4 & _). rewrite H4. exact Hs2. }
    unfold local_outcome in HK. rewrite allowed_unfold, Ev0 in HK.
    unfold V at 1. simpl vm_visit.
    destruct (mk_skip s || may_mutate ps j)%bool eqn:Eh.
    - destruct (mu_mutable m j) as [b| | |] eqn:Em; cbn [bind]; try discriminate.
      destruct b.
      + destruct (Nat.eqb (mk_index s) index).
        * clear HK. cbv zeta. destruct (allowed_list _ _ _ _) as [below sk2].
          destruct (mu_mutate m fuel j (mk_rng s)) as [d|e|x|] eqn:Emu; cbn [bind]; try discriminate;
            intros H; inversion H; subst; right; split; [reflexivity| |reflexivity|].
          -- exists [], j. simpl. repeat split; auto. left. exists d. auto using same_payload_refl.
          -- exists [], j'. simpl. repeat split; auto. right. exists e. auto.
        * cbn [bind]. simpl vm_children. cbv iota. apply HK; repeat split.
      + cbn [bind]. simpl vm_children. cbv iota. apply HK; [apply same_payload_refl|reflexivity].
    - cbn [bind]. simpl vm_children. cbv iota. apply HK; [apply same_payload_refl|reflexivity].
  Qed.
End Local.

Lemma make_mutation_local ps idm m fuel i ast r ast' s :
  make_mutation ps idm m fuel i ast r = Ok (ast', s) ->
  (ast' = ast /\ mk_comment s = None /\ mk_result s = empty_result /\ mk_node_id s = 0%N /\ mk_rng s = r) \/
  (exists p n d, subtree p ast = Some n /\ In (p, n) (fst (allowed ps false ast)) /\ mu_mutable m n = Ok true /\
     mu_mutate m fuel n r = Ok d /\ ast' = set_subtree p (md_node d) ast /\
     mk_comment s = md_comment d /\ mk_result s = md_result d /\ mk_rng s = md_rng d /\
     mk_node_id s = match mr_node (md_result d) with
                    | Some i => i
                    | None => match idm (md_node d) with Some i => i | None => 0%N end
                    end).
Proof.
  unfold make_mutation.
  destruct (traverse_mut _ ast (maker_start r)) as [[[a' s'] st]| | |] eqn:E; simpl; try discriminate.
  apply local_correct in E. destruct (mk_error s') as [e|] eqn:Ee; [discriminate|].
  intros H; inversion H; subst. destruct E as [(-> & -> & Hs & _)|(-> & p & n & Hp & Hm & Hr)].
  - left. destruct Hs as (A & B & C & D & F). simpl in *. auto.
  - right. destruct Hr as [(d & Hd & -> & Hs)|(e & He & Hs)]; [|congruence].
    exists p, n, d. destruct Hs as (A & B & C & D & F). simpl in *.
    pose proof (allowed_subtree _ _ _ _ _ Hp). auto 12.
Qed.

(** ** Exact behaviour below the count *)
Lemma make_mutation_select ps idm m fuel i ast r :
  (forall p n, In (p, n) (fst (allowed ps false ast)) -> exists b, mu_mutable m n = Ok b) ->
  match nth_error (sel m (fst (allowed ps false ast))) i with
  | Some (p, n) =>
      match mu_mutate m fuel n r with
      | Ok d => exists s, make_mutation ps idm m fuel i ast r = Ok (set_subtree p (md_node d) ast, s) /\
                          same_payload (after_mutation idm (maker_start r) d) s
      | Err e => make_mutation ps idm m fuel i ast r = Err e
      | Panic x => make_mutation ps idm m fuel i ast r = Panic x
      | Diverge => make_mutation ps idm m fuel i ast r = Diverge
      end
  | None => exists s, make_mutation ps idm m fuel i ast r = Ok (ast, s) /\ same_payload (maker_start r) s
  end.
Proof.
  intros Ht. pose proof (maker_correct ps idm m fuel i ast (maker_start r)) as H. simpl in H.
  specialize (H ltac:(lia) Ht). rewrite Nat.sub_0_r in H.
  destruct (nth_error _ i) as [[p n]|].
  - destruct H as (b & H). unfold make_mutation. rewrite H. unfold hit. simpl.
    destruct (mu_mutate m fuel n r) as [d|e|x|]; simpl; try reflexivity.
    eexists. split; [reflexivity|]. repeat split.
  - unfold make_mutation. rewrite H. simpl. eexists. split; [reflexivity|]. repeat split.
Qed.

(** ** Function restriction *)
Lemma have_permission_app ps a q :
  have_permission (ps ++ a) q = (have_permission ps q || have_permission a q)%bool.
Proof. unfold have_permission. apply existsb_app. Qed.

Lemma functions_fold names acc :
  fold_left (fun ps f =>
     add_permission (add_permission ps (PMutate (SName (OValue f Allow))))
                    (PMutate (SChildren (OValue f Allow)))) names acc =
  acc ++ flat_map (fun f => [PMutate (SName (OValue f Allow)); PMutate (SChildren (OValue f Allow))]) names.
Proof.
  revert acc; induction names as [|f names IH]; intros acc; simpl; [now rewrite app_nil_r|].
  rewrite IH. unfold add_permission. rewrite <- !app_assoc. reflexivity.
Qed.

Definition named_in (names : list string) (n : json) : bool :=
  match name_of n with Some s => smem s names | None => false end.

Lemma smem_In s l : smem s l = true <-> In s l.
Proof.
  induction l as [|x l IH]; simpl; [split; [discriminate|tauto]|].
  destruct (String.eqb_spec s x); [subst; tauto|]. rewrite IH. intuition congruence.
Qed.

Lemma functions_may_mutate names n :
  names <> [] -> may_mutate (permissions_for_functions names) n = named_in names n.
Proof.
  intros Hn. unfold permissions_for_functions, may_mutate, named_in.
  destruct names as [|f0 names0] eqn:Enames; [congruence|]. rewrite <- Enames in *. clear Enames Hn f0 names0.
  rewrite functions_fold. unfold add_permission. simpl app. destruct (name_of n) as [s|].
  - rewrite have_permission_app. simpl have_permission at 2. rewrite orb_false_r.
    induction names as [|f names IH]; simpl; [reflexivity|]. rewrite IH, (String.eqb_sym f s), andb_true_r.
    destruct (s =?s f); reflexivity.
  - rewrite have_permission_app. simpl have_permission at 2. rewrite orb_false_r.
    induction names as [|f names IH]; simpl; auto.
Qed.

Lemma functions_may_mutate_children names n :
  names <> [] -> may_mutate_children (permissions_for_functions names) n = named_in names n.
Proof.
  intros Hn. unfold permissions_for_functions, may_mutate_children, named_in.
  destruct names as [|f0 names0] eqn:Enames; [congruence|]. rewrite <- Enames in *. clear Enames Hn f0 names0.
  rewrite functions_fold. unfold add_permission. simpl app. destruct (name_of n) as [s|].
  - rewrite have_permission_app. simpl have_permission at 2. rewrite orb_false_r.
    induction names as [|f names IH]; simpl; [reflexivity|]. rewrite IH, (String.eqb_sym f s), andb_true_r.
    destruct (s =?s f); reflexivity.
  - rewrite have_permission_app. simpl have_permission at 2. rewrite orb_false_r.
    induction names as [|f names IH]; simpl; auto.
Qed.

Lemma functions_may_visit names n : may_visit (permissions_for_functions names) n = true.
Proof.
  unfold permissions_for_functions, may_visit, add_permission.
  destruct (name_of n); rewrite have_permission_app; simpl; now rewrite orb_true_r.
Qed.

Lemma unrestricted_may_mutate n : may_mutate (permissions_for_functions []) n = true.
Proof. unfold may_mutate. destruct (name_of n); reflexivity. Qed.

Lemma allowed_sound ps skip j p n :
  In (p, n) (fst (allowed ps skip j)) -> skip = true \/
  exists x, In x (nodes_along p j) /\ (may_mutate ps x = true \/ may_mutate_children ps x = true).
Proof.
  enough (H : forall skip, (snd (allowed ps skip j) = true -> skip = true) /\ forall p n,
    In (p, n) (fst (allowed ps skip j)) -> skip = true \/
    exists x, In x (nodes_along p j) /\ (may_mutate ps x = true \/ may_mutate_children ps x = true)).
  { apply H. }
  clear skip p n. induction j as [j IH] using json_children_ind. intros skip.
  rewrite allowed_unfold. destruct (may_visit ps j); [|simpl; split; [auto|tauto]].
  assert (HL : forall i sk, (snd (allowed_list ps i sk (children j)) = true -> sk = true) /\
    forall p n, In (p, n) (fst (allowed_list ps i sk (children j))) -> sk = true \/
    exists k q c x, p = k :: q /\ i <= k /\ nth_error (children j) (k - i) = Some c /\ In x (nodes_along q c) /\
       (may_mutate ps x = true \/ may_mutate_children ps x = true)).
  { induction IH as [|x l Hx Hl IHl]; intros i sk; simpl; [split; [auto|tauto]|].
    specialize (Hx sk). destruct (allowed ps sk x) as [a s'].
    specialize (IHl (S i) s'). destruct (allowed_list ps (S i) s' l) as [c s'']. simpl in *.
    destruct Hx as [Hx1 Hx2]. destruct IHl as [Hl1 Hl2]. split; [auto|].
    intros p n. rewrite in_app_iff, in_map_iff. intros [([q n'] & E & Hi)|Hi].
    - inversion E; subst. destruct (Hx2 _ _ Hi) as [->|(y & Hy & Hm)]; [auto|]. right.
      exists i, q, x, y. rewrite Nat.sub_diag. simpl. auto.
    - destruct (Hl2 _ _ Hi) as [Hs|(k & q & d & y & -> & Hk & Hd & Hy & Hm)]; [auto|]. right.
      exists k, q, d, y. replace (k - i) with (S (k - S i)) by lia. simpl.
      repeat split; auto. lia. }
  cbv zeta. destruct (may_mutate_children ps j) eqn:Ek.
  - specialize (HL 0 true). destruct (allowed_list ps 0 true (children j)) as [b s'']. simpl in *.
    split; [discriminate|]. intros p n _. right. exists j. split; [destruct p; now left|auto].
  - specialize (HL 0 skip). destruct (allowed_list ps 0 skip (children j)) as [b s'']. simpl in *.
    destruct HL as [H1 H2]. split; [exact H1|]. intros p n. rewrite in_app_iff. intros [Hi|Hi].
    + destruct (skip || may_mutate ps j)%bool eqn:Ep; simpl in Hi; [|tauto].
      apply orb_true_iff in Ep. destruct Ep as [->|Ep]; [auto|]. right.
      exists j. split; [destruct p; now left|auto].
    + destruct (H2 _ _ Hi) as [Hs|(k & q & c & x & -> & _ & Hc & Hx & Hm)]; [auto|]. right.
      exists x. rewrite Nat.sub_0_r in Hc. simpl. rewrite Hc. auto.
Qed.

(** Unrestricted: every position is looked at. *)
Definition all_nodes (j : json) : list (path * json) :=
  flat_map (fun p => match subtree p j with Some n => [(p, n)] | None => [] end) (positions j).

Lemma flat_map_positions_list {B} (f : path -> list B) i l :
  flat_map f (positions_list i l) =
  (fix go i l := match l with
                 | [] => []
                 | x :: l => flat_map (fun q => f (i :: q)) (positions x) ++ go (S i) l
                 end) i l.
Proof.
  revert i; induction l as [|x l IH]; intros i; simpl; [reflexivity|].
  rewrite flat_map_app, IH. f_equal. rewrite !flat_map_concat_map, map_map. reflexivity.
Qed.

Lemma flat_map_map_out {A B C} (f : A -> list B) (g : B -> C) l :
  flat_map (fun x => map g (f x)) l = map g (flat_map f l).
Proof. induction l as [|x l IH]; simpl; [reflexivity|]. now rewrite map_app, IH. Qed.

Lemma all_nodes_unfold j :
  all_nodes j = ([], j) ::
    (fix go i l := match l with
                   | [] => []
                   | x :: l => map (shift i) (all_nodes x) ++ go (S i) l
                   end) 0 (children j).
Proof.
  unfold all_nodes at 1. rewrite positions_unfold. simpl. f_equal.
  rewrite flat_map_positions_list.
  assert (H : forall i l, (forall k, nth_error (children j) (i + k) = nth_error l k) ->
    (fix go i l := match l with
       | [] => []
       | x :: l => flat_map (fun q => match subtree (i :: q) j with Some n => [(i :: q, n)] | None => [] end)
                            (positions x) ++ go (S i) l
       end) i l =
    (fix go i l := match l with
                   | [] => []
                   | x :: l => map (shift i) (all_nodes x) ++ go (S i) l
                   end) i l).
  { intros i l; revert i; induction l as [|x l IH]; intros i Hn; simpl; [reflexivity|].
    rewrite IH by (intros k; specialize (Hn (S k)); simpl in Hn; rewrite <- Hn; f_equal; lia).
    f_equal. unfold all_nodes. rewrite <- flat_map_map_out. apply flat_map_ext. intros q. simpl.
    specialize (Hn 0). rewrite Nat.add_0_r in Hn. rewrite Hn. simpl.
    destruct (subtree q x); reflexivity. }
  apply H. reflexivity.
Qed.

(** If everything below [j] may be mutated, [allowed] lists all nodes. *)
Lemma allowed_everything ps skip j :
  (forall n, may_visit ps n = true) -> (forall n, may_mutate ps n = true) ->
  fst (allowed ps skip j) = all_nodes j.
Proof.
  intros Hv Hm. revert skip; induction j as [j IH] using json_children_ind. intros skip.
  rewrite allowed_unfold, all_nodes_unfold, Hv, Hm, orb_true_r. cbv zeta.
  assert (HL : forall i sk, fst (allowed_list ps i sk (children j)) =
    (fix go i l := match l with
                   | [] => []
                   | x :: l => map (shift i) (all_nodes x) ++ go (S i) l
                   end) i (children j)).
  { induction IH as [|x l Hx Hl IHl]; intros i sk; simpl; [reflexivity|].
    specialize (Hx sk). destruct (allowed ps sk x) as [a s']. specialize (IHl (S i) s').
    destruct (allowed_list ps (S i) s' l) as [c s'']. simpl in *. congruence. }
  specialize (HL 0 (if may_mutate_children ps j then true else skip)).
  destruct (allowed_list ps 0 _ (children j)) as [c s'']. simpl in *. congruence.
Qed.

Lemma all_nodes_In j p n : In (p, n) (all_nodes j) <-> subtree p j = Some n.
Proof.
  unfold all_nodes. rewrite in_flat_map. split.
  - intros (q & _ & H). destruct (subtree q j) eqn:E; simpl in H; [|tauto].
    destruct H as [H|[]]. inversion H; subst. exact E.
  - intros H. exists p. split; [apply positions_subtree; eauto|]. rewrite H. now left.
Qed.

(** Restriction by names, when no granted node contains another granted node. *)
Lemma allowed_functions_complete ps j :
  (forall n, may_visit ps n = true) ->
  (forall n, may_mutate ps n = true -> may_mutate_children ps n = true) ->
  (forall n, may_mutate_children ps n = true -> may_mutate ps n = true) ->
  (* below a granted node no node is granted *)
  (forall p q x y, subtree p j = Some x -> may_mutate_children ps x = true -> q <> [] ->
                   subtree q x = Some y -> may_mutate_children ps y = false) ->
  forall skip,
  (skip = true -> forall q y, subtree q j = Some y -> may_mutate_children ps y = false) ->
  snd (allowed ps skip j) = skip /\
  forall p n, subtree p j = Some n ->
    skip = true \/ (exists x, In x (nodes_along p j) /\ may_mutate_children ps x = true) ->
    In (p, n) (fst (allowed ps skip j)).
Proof.
  intros Hv Hmc Hcm. induction j as [j IH] using json_children_ind. intros Hnest skip Hskip.
  rewrite allowed_unfold, Hv. cbv zeta.
  set (sk1 := if may_mutate_children ps j then true else skip).
  assert (Hsub : forall i c, nth_error (children j) i = Some c ->
    (forall p q x y, subtree p c = Some x -> may_mutate_children ps x = true -> q <> [] ->
                   subtree q x = Some y -> may_mutate_children ps y = false)).
  { intros i c Hc p q x y Hp. apply (Hnest (i :: p)). simpl. now rewrite Hc. }
  assert (Hsub2 : forall i c, nth_error (children j) i = Some c -> sk1 = true ->
     forall q y, subtree q c = Some y -> may_mutate_children ps y = false).
  { intros i c Hc Hs q y Hq. unfold sk1 in Hs. destruct (may_mutate_children ps j) eqn:Ek.
    - apply (Hnest [] (i :: q) j y); auto; [discriminate|]. simpl. now rewrite Hc.
    - apply (Hskip Hs (i :: q)). simpl. now rewrite Hc. }
  assert (HL : forall i l, (forall k, nth_error (children j) (i + k) = nth_error l k) ->
    snd (allowed_list ps i sk1 l) = sk1 /\
    forall k q c n, nth_error l k = Some c -> subtree q c = Some n ->
      sk1 = true \/ (exists x, In x (nodes_along q c) /\ may_mutate_children ps x = true) ->
      In ((i + k) :: q, n) (fst (allowed_list ps i sk1 l))).
  { intros i l; revert i; induction l as [|x l IHl]; intros i Hn; simpl.
    - split; [reflexivity|]. intros k q c n Hk. destruct k; discriminate.
    - pose proof (Hn 0) as Hx. rewrite Nat.add_0_r in Hx. simpl in Hx.
      rewrite Forall_forall in IH. pose proof (nth_error_In _ _ Hx) as Hin.
      destruct (IH x Hin (Hsub _ _ Hx) sk1) as [Hsk Hall].
      { intros Hs. exact (Hsub2 _ _ Hx Hs). }
      destruct (allowed ps sk1 x) as [a s'] eqn:Ea. simpl in Hsk. subst s'.
      destruct (IHl (S i)) as [Hsk2 Hall2].
      { intros k. specialize (Hn (S k)). simpl in Hn. rewrite <- Hn. f_equal. lia. }
      destruct (allowed_list ps (S i) sk1 l) as [b s''] eqn:Eb. simpl in *. split; [exact Hsk2|].
      intros k q c n Hk Hq Hor. apply in_app_iff. destruct k as [|k].
      + left. simpl in Hk. inversion Hk; subst. apply in_map_iff. exists (q, n).
        split; [unfold shift; simpl; rewrite Nat.add_0_r; reflexivity|]. apply Hall; auto.
      + right. simpl in Hk. replace (i + S k) with (S i + k) by lia. apply (Hall2 k q c n); auto. }
  destruct (HL 0 (children j) (fun k => eq_refl)) as [Hs2 Hall].
  destruct (allowed_list ps 0 sk1 (children j)) as [below sk2] eqn:Eb. simpl in *. subst sk2.
  split.
  - unfold sk1. destruct (may_mutate_children ps j) eqn:Ek; [|reflexivity].
    destruct skip; [|reflexivity]. specialize (Hskip eq_refl [] j eq_refl). congruence.
  - intros p n Hp Hor. apply in_app_iff. destruct p as [|k q].
    + left. simpl in Hp. inversion Hp; subst.
      replace (skip || may_mutate ps n)%bool with true; [now left|].
      destruct Hor as [->|(x & [<-|[]] & Hx)]; [reflexivity|]. rewrite (Hcm _ Hx), orb_true_r. reflexivity.
    + right. simpl in Hp. destruct (nth_error (children j) k) as [c|] eqn:Ec; [|discriminate].
      apply (Hall k q c n Ec Hp). unfold sk1.
      destruct (may_mutate_children ps j) eqn:Ek; [auto|].
      destruct Hor as [->|(x & Hin & Hx)]; [auto|]. right.
      simpl in Hin. rewrite Ec in Hin. destruct Hin as [<-|Hin]; [congruence|]. eauto.
Qed.

(** ** Node paths *)
Definition ids_along (idm : json -> option N) (p : path) (j : json) : list N :=
  flat_map (fun n => match idm n with Some i => [i] | None => [] end) (nodes_along p j).

Definition id_list (idm : json -> option N) (n : json) : list N :=
  match idm n with Some i => [i] | None => [] end.

(** Invariant of the path visitor over one subtree. *)
Lemma path_correct ps idm j : forall s s' stop,
  traverse (path_visitor ps idm) j s = Ok (s', stop) ->
  stop = false /\ ps_path s' = ps_path s /\
  exists new, ps_map s' = new ++ ps_map s /\
    (forall i q, In (i, q) new -> exists p n, subtree p j = Some n /\ idm n = Some i /\
        q = ps_path s ++ ids_along idm p j) /\
    ((forall n, may_visit ps n = true) -> forall p n i, subtree p j = Some n -> idm n = Some i ->
        In (i, ps_path s ++ ids_along idm p j) new).
Proof.
  induction j as [j IH] using json_children_ind. intros s s' stop.
  rewrite traverse_unfold. simpl v_perm. destruct (may_visit ps j) eqn:Ev.
  2:{ intros H; inversion H; subst. repeat split. exists []. split; [reflexivity|]. split; [simpl; tauto|].
      intros Hall. rewrite Hall in Ev. discriminate. }
  assert (HL : forall s s' stop, traverse_list (path_visitor ps idm) (children j) s = Ok (s', stop) ->
    stop = false /\ ps_path s' = ps_path s /\
    exists new, ps_map s' = new ++ ps_map s /\
    (forall i q, In (i, q) new -> exists k c p n, nth_error (children j) k = Some c /\ subtree p c = Some n /\
        idm n = Some i /\ q = ps_path s ++ ids_along idm p c) /\
    ((forall n, may_visit ps n = true) -> forall k c p n i, nth_error (children j) k = Some c ->
        subtree p c = Some n -> idm n = Some i -> In (i, ps_path s ++ ids_along idm p c) new)).
  { clear s s' stop Ev. induction IH as [|x l Hx Hl IHl]; intros s s' stop; simpl.
    - intros H; inversion H; subst. repeat split. exists []. split; [reflexivity|]. split; [simpl; tauto|].
      intros _ k c p n i Hk. destruct k; discriminate.
    - destruct (traverse (path_visitor ps idm) x s) as [[s1 st]| | |] eqn:Ex; simpl; try discriminate.
      apply Hx in Ex. destruct Ex as (-> & Hp1 & new1 & Hm1 & Ha1 & Hb1).
      intros H. apply IHl in H. destruct H as (-> & Hp2 & new2 & Hm2 & Ha2 & Hb2).
      split; [reflexivity|]. split; [congruence|]. exists (new2 ++ new1).
      split; [rewrite Hm2, Hm1, app_assoc; reflexivity|]. rewrite Hp1 in *. split.
      + intros i q. rewrite in_app_iff. intros [Hi|Hi].
        * destruct (Ha2 _ _ Hi) as (k & c & p & n & Hk & H1 & H2 & H3). exists (S k), c, p, n. auto.
        * destruct (Ha1 _ _ Hi) as (p & n & H1 & H2 & H3). exists 0, x, p, n. auto.
      + intros Hall k c p n i Hk H1 H2. apply in_app_iff. destruct k as [|k]; simpl in Hk.
        * inversion Hk; subst. right. eauto.
        * left. eauto. }
  simpl v_visit. simpl v_children. cbv iota.
  assert (Hids : forall p, ids_along idm p j = id_list idm j ++
     match p with [] => [] | k :: q => match nth_error (children j) k with Some c => ids_along idm q c | None => [] end end).
  { intros p. unfold ids_along, id_list. destruct p as [|k q]; simpl; [reflexivity|].
    destruct (nth_error (children j) k); reflexivity. }
  destruct (idm j) as [i0|] eqn:Ei; cbn [bind].
  - destruct (traverse_list _ (children j) _) as [[s1 st]| | |] eqn:El; cbn [bind]; try discriminate.
    intros H; inversion H; subst; clear H. simpl v_start in El. rewrite Ei in El. apply HL in El.
    destruct El as (-> & Hp & new & Hm & Ha & Hb). simpl in *. rewrite Ei. simpl.
    split; [reflexivity|]. split; [rewrite Hp; apply removelast_last|].
    exists (new ++ [(i0, ps_path s ++ [i0])]). split; [rewrite Hm, <- app_assoc; reflexivity|].
    unfold id_list in Hids. rewrite Ei in Hids. split.
    + intros i q. rewrite in_app_iff. intros [Hi|[Hi|[]]].
      * destruct (Ha _ _ Hi) as (k & c & p & n & Hk & H1 & H2 & ->). exists (k :: p), n.
        simpl. rewrite Hk. split; [exact H1|]. split; [exact H2|].
        rewrite Hids, Hk, <- app_assoc. reflexivity.
      * inversion Hi; subst. exists [], j. simpl. split; [reflexivity|]. split; [exact Ei|].
        rewrite Hids. reflexivity.
    + intros Hall p n i Hp' Hn. apply in_app_iff. destruct p as [|k q]; simpl in Hp'.
      * inversion Hp'; subst. rewrite Ei in Hn; inversion Hn; subst. right. left. rewrite Hids. reflexivity.
      * left. destruct (nth_error (children j) k) as [c|] eqn:Ec; [|discriminate].
        rewrite Hids, Ec. rewrite app_assoc. apply (Hb Hall k c q n i Ec Hp' Hn).
  - destruct (traverse_list _ (children j) _) as [[s1 st]| | |] eqn:El; cbn [bind]; try discriminate.
    intros H; inversion H; subst; clear H. simpl v_start in El. rewrite Ei in El. apply HL in El.
    destruct El as (-> & Hp & new & Hm & Ha & Hb). simpl in *. rewrite Ei. simpl.
    split; [reflexivity|]. split; [exact Hp|].
    exists new. split; [exact Hm|].
    unfold id_list in Hids. rewrite Ei in Hids. split.
    + intros i q Hi.
      destruct (Ha _ _ Hi) as (k & c & p & n & Hk & H1 & H2 & ->). exists (k :: p), n.
      simpl. rewrite Hk. split; [exact H1|]. split; [exact H2|]. rewrite Hids, Hk. reflexivity.
    + intros Hall p n i Hp' Hn. destruct p as [|k q]; simpl in Hp'.
      * inversion Hp'; subst. congruence.
      * destruct (nth_error (children j) k) as [c|] eqn:Ec; [|discriminate].
        rewrite Hids, Ec. apply (Hb Hall k c q n i Ec Hp' Hn).
Qed.

Lemma pm_get_In id m q : pm_get id m = Some q -> In (id, q) m.
Proof.
  induction m as [|[i p] m IH]; simpl; [discriminate|].
  destruct (N.eqb_spec i id); [intros E; inversion E; subst; auto|auto].
Qed.

Lemma In_pm_get id m q : In (id, q) m -> exists q', pm_get id m = Some q'.
Proof.
  induction m as [|[i p] m IH]; simpl; [tauto|]. intros [E|Hi].
  - inversion E; subst. rewrite N.eqb_refl. eauto.
  - destruct (N.eqb i id); eauto.
Qed.

Lemma path_total ps idm j s : exists s', traverse (path_visitor ps idm) j s = Ok (s', false).
Proof.
  revert s; induction j as [j IH] using json_children_ind. intros s. rewrite traverse_unfold. simpl v_perm.
  destruct (may_visit ps j); [|eauto].
  assert (HL : forall s, exists s', traverse_list (path_visitor ps idm) (children j) s = Ok (s', false)).
  { induction IH as [|x l Hx Hl IHl]; intros s0; simpl; [eauto|].
    destruct (Hx s0) as [s1 ->]. simpl. apply IHl. }
  simpl v_visit. destruct (idm j); cbn [bind]; simpl v_children; cbv iota;
    match goal with |- context [traverse_list _ _ ?x] => destruct (HL x) as [s1 ->] end; cbn [bind]; eauto.
Qed.
