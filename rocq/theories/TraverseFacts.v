(** Proofs about the traversals. *)
From Coq Require Import String List NArith ZArith Bool Lia Arith.
From Coq Require FinFun.
From Verif Require Import Base Json Rng Permissions MutationType Traverse SpecTree.
Import ListNotations.
Open Scope list_scope.

Lemma mt_eqb_eq a b : mt_eqb a b = true <-> a = b.
Proof. unfold mt_eqb. destruct mutation_type_eq_dec; split; congruence. Qed.
Lemma mt_eqb_refl a : mt_eqb a a = true.
Proof. apply mt_eqb_eq; reflexivity. Qed.
Lemma mt_eqb_neq a b : a <> b -> mt_eqb a b = false.
Proof. unfold mt_eqb. destruct mutation_type_eq_dec; congruence. Qed.

(** ** Subsequences *)
Lemma subseq_refl {A} (l : list A) : subseq l l.
Proof. induction l; constructor; auto. Qed.

Lemma subseq_app {A} (a b c d : list A) : subseq a b -> subseq c d -> subseq (a ++ c) (b ++ d).
Proof.
  intros H; revert c d; induction H; simpl; intros c d Hc.
  - induction l; simpl; auto. constructor; auto.
  - constructor; auto.
  - constructor; auto.
Qed.

Lemma subseq_map {A B} (f : A -> B) a b : subseq a b -> subseq (map f a) (map f b).
Proof. induction 1; simpl; constructor; auto. Qed.

Lemma subseq_filter {A} (f : A -> bool) a : subseq (filter f a) a.
Proof. induction a as [|x a IH]; simpl; [constructor|]. destruct (f x); constructor; auto. Qed.

Lemma subseq_trans {A} (a b c : list A) : subseq a b -> subseq b c -> subseq a c.
Proof.
  intros H1 H2; revert a H1; induction H2; intros a H1.
  - inversion H1; subst; constructor.
  - inversion H1; subst; constructor; auto.
  - constructor; auto.
Qed.

Lemma subseq_In {A} (a b : list A) x : subseq a b -> In x a -> In x b.
Proof. induction 1; simpl; intros; tauto. Qed.

Lemma subseq_NoDup {A} (a b : list A) : subseq a b -> NoDup b -> NoDup a.
Proof.
  induction 1; intros Hn.
  - constructor.
  - inversion Hn; subst. constructor; auto. intro Hi; eapply subseq_In in Hi; eauto.
  - inversion Hn; auto.
Qed.

(** ** List views of the nested recursions *)
Fixpoint traverse_list {St} (v : visitor St) (l : list json) (s : St) : res (St * bool) :=
  match l with
  | [] => Ok (s, false)
  | x :: l => let? (s', stop) := traverse v x s in
              if stop then Ok (s', true) else traverse_list v l s'
  end.

Lemma traverse_unfold {St} (v : visitor St) n s :
  traverse v n s =
  if v_perm v n then
    let? (s1, stop) := v_visit v s n in
    if stop then Ok (s1, true)
    else if v_children v n then
      let? (s3, stop) := traverse_list v (children n) (v_start v s1 n) in
      Ok (v_end v s3 n, stop)
    else Ok (s1, false)
  else Ok (s, false).
Proof.
  destruct n; simpl; try reflexivity;
    destruct (v_perm v _); try reflexivity;
    match goal with |- bind ?r _ = _ => destruct r as [[s1 stop]| | |] end; simpl; try reflexivity;
    destruct stop; try reflexivity;
    destruct (v_children v _); try reflexivity.
  - f_equal. generalize (v_start v s1 (JArr l)). induction l as [|x l IH]; intros s0; simpl; [reflexivity|].
    destruct (traverse v x s0) as [[s' st]| | |]; simpl; try reflexivity.
    destruct st; [reflexivity|]. apply IH.
  - f_equal. generalize (v_start v s1 (JObj o)). induction o as [|[k x] o IH]; intros s0; simpl; [reflexivity|].
    destruct (traverse v x s0) as [[s' st]| | |]; simpl; try reflexivity.
    destruct st; [reflexivity|]. apply IH.
Qed.

Fixpoint traverse_mut_list {St} (v : visitor_mut St) (l : list json) (s : St)
  : res (list json * St * bool) :=
  match l with
  | [] => Ok ([], s, false)
  | x :: l =>
      let? (x', s', stop) := traverse_mut v x s in
      if stop then Ok (x' :: l, s', true)
      else let? (l', s'', stop) := traverse_mut_list v l s' in Ok (x' :: l', s'', stop)
  end.

Fixpoint zip_values (o : list (string * json)) (l : list json) : list (string * json) :=
  match o, l with
  | (k, _) :: o, x :: l => (k, x) :: zip_values o l
  | _, _ => []
  end.

(** [n] with its children replaced by a list of the same length. *)
Definition set_children (n : json) (l : list json) : json :=
  match n with
  | JArr _ => JArr l
  | JObj o => JObj (zip_values o l)
  | _ => n
  end.

Lemma zip_values_same o : zip_values o (map snd o) = o.
Proof. induction o as [|[k x] o IH]; simpl; congruence. Qed.

Lemma set_children_same n : set_children n (children n) = n.
Proof. destruct n; simpl; try reflexivity. now rewrite zip_values_same. Qed.

Lemma traverse_mut_unfold {St} (v : visitor_mut St) n s :
  traverse_mut v n s =
  if vm_perm v n then
    let? (s1, change) := vm_visit v s n in
    match change with
    | Some n' => Ok (n', s1, true)
    | None =>
        if vm_children v n then
          let? (l', s3, stop) := traverse_mut_list v (children n) (vm_start v s1 n) in
          Ok (set_children n l', vm_end v s3 (set_children n l'), stop)
        else Ok (n, s1, false)
    end
  else Ok (n, s, false).
Proof.
  destruct n; simpl; try reflexivity;
    destruct (vm_perm v _); try reflexivity;
    match goal with |- bind ?r _ = _ => destruct r as [[s1 [n'|]]| | |] end; simpl; try reflexivity;
    destruct (vm_children v _); try reflexivity.
  - generalize (vm_start v s1 (JArr l)). intros s0.
    match goal with |- bind (bind ?A _) _ = bind ?B _ => assert (E : A = B) end.
    { revert s0. induction l as [|x l IH]; intros s0; simpl; [reflexivity|].
      destruct (traverse_mut v x s0) as [[[x' s'] st]| | |]; simpl; try reflexivity.
      destruct st; [reflexivity|]. rewrite IH. reflexivity. }
    rewrite E. destruct (traverse_mut_list v l s0) as [[[l' s'] st]| | |]; reflexivity.
  - generalize (vm_start v s1 (JObj o)). intros s0.
    match goal with |- bind (bind ?A _) _ = bind ?B _ =>
      assert (E : A = let? (l', s'', stop) := B in Ok (zip_values o l', s'', stop)) end.
    { revert s0. induction o as [|[k x] o IH]; intros s0; simpl; [reflexivity|].
      destruct (traverse_mut v x s0) as [[[x' s'] st]| | |]; simpl; try reflexivity.
      destruct st; simpl; [now rewrite zip_values_same|]. rewrite IH.
      destruct (traverse_mut_list v (map snd o) s') as [[[l' s''] st]| | |]; reflexivity. }
    rewrite E. destruct (traverse_mut_list v (map snd o) s0) as [[[l' s'] st]| | |]; reflexivity.
Qed.

(** Induction on a tree through [children]. *)
Lemma json_children_ind (P : json -> Prop) :
  (forall j, Forall P (children j) -> P j) -> forall j, P j.
Proof.
  intros H. induction j using json_ind'; apply H; simpl; auto.
  rewrite Forall_map. assumption.
Qed.

(** ** Positions *)
Fixpoint positions_list (i : nat) (l : list json) : list path :=
  match l with
  | [] => []
  | x :: l => map (cons i) (positions x) ++ positions_list (S i) l
  end.

Lemma positions_unfold j : positions j = [] :: positions_list 0 (children j).
Proof.
  destruct j; simpl; try reflexivity.
  f_equal. generalize 0. induction o as [|[k x] o IH]; intros i; simpl; [reflexivity|]. now rewrite IH.
Qed.

Lemma positions_list_head i l p : In p (positions_list i l) -> exists k q, p = k :: q /\ i <= k.
Proof.
  revert i; induction l as [|x l IH]; intros i; simpl; [tauto|].
  rewrite in_app_iff, in_map_iff. intros [[q [<- _]]|H]; [eauto|].
  destruct (IH _ H) as (k & q & -> & Hk). exists k, q; split; auto. lia.
Qed.

Lemma positions_NoDup j : NoDup (positions j).
Proof.
  induction j as [j IH] using json_children_ind. rewrite positions_unfold.
  assert (H : forall i, NoDup (positions_list i (children j))).
  { induction IH as [|x l Hx Hl IHl]; intros i; simpl; [constructor|].
    assert (Hd : forall p, In p (map (cons i) (positions x)) -> ~ In p (positions_list (S i) l)).
    { intros p Hp Hq. apply in_map_iff in Hp. destruct Hp as (q & <- & _).
      apply positions_list_head in Hq. destruct Hq as (k & q' & E & Hk). inversion E; lia. }
    specialize (IHl (S i)). revert Hd. generalize (positions_list (S i) l) IHl.
    intros L HL. assert (Hm : NoDup (map (cons i) (positions x))).
    { apply FinFun.Injective_map_NoDup; auto. intros a b E. congruence. }
    induction Hm; simpl; intros Hd; auto. constructor.
    - rewrite in_app_iff. intros [Hi|Hi]; [auto|]. revert Hi. apply Hd. now left.
    - apply IHHm. intros p Hp. apply Hd. now right. }
  constructor; auto. intros Hi. apply positions_list_head in Hi. destruct Hi as (? & ? & ? & _). discriminate.
Qed.

Lemma positions_list_In i l k q :
  In (k :: q) (positions_list i l) <->
  exists x, i <= k /\ nth_error l (k - i) = Some x /\ In q (positions x).
Proof.
  revert i; induction l as [|x l IH]; intros i; simpl.
  - split; [tauto|]. intros (x & _ & H & _). destruct (k - i); discriminate.
  - rewrite in_app_iff, in_map_iff, IH. split.
    + intros [(q' & E & H)|(y & Hk & H1 & H2)].
      * inversion E; subst. exists x. rewrite Nat.sub_diag. auto.
      * exists y. split; [lia|]. replace (k - i) with (S (k - S i)) by lia. auto.
    + intros (y & Hk & H1 & H2). destruct (Nat.eq_dec k i) as [->|Hne].
      * left. rewrite Nat.sub_diag in H1. inversion H1; subst. eauto.
      * right. exists y. split; [lia|]. replace (k - i) with (S (k - S i)) in H1 by lia. auto.
Qed.

(** A position is in the list exactly when it denotes a subtree. *)
Lemma positions_subtree j p : In p (positions j) <-> exists n, subtree p j = Some n.
Proof.
  revert p; induction j as [j IH] using json_children_ind. intros p.
  rewrite positions_unfold. destruct p as [|i p]; simpl.
  - split; [eauto|auto].
  - rewrite positions_list_In. rewrite Nat.sub_0_r. split.
    + intros [H|(x & _ & Hn & Hp)]; [discriminate|]. rewrite Hn.
      rewrite Forall_forall in IH. apply IH in Hp; eauto using nth_error_In.
    + intros (n & H). right. destruct (nth_error (children j) i) as [c|] eqn:E; [|discriminate].
      exists c. rewrite Forall_forall in IH. rewrite IH; eauto using nth_error_In.
      repeat split; eauto. lia.
Qed.

(** ** Replacing a child *)
Lemma set_child_set_children i x n :
  i < length (children n) -> set_child i x n = set_children n (replace_at i x (children n)).
Proof.
  destruct n; simpl; try reflexivity. intros Hi. f_equal.
  revert i Hi; induction o as [|[k y] o IH]; intros i Hi; simpl in *; [lia|].
  destruct i; simpl; [now rewrite zip_values_same|]. f_equal. apply IH. lia.
Qed.

Lemma children_set_child i x n : children (set_child i x n) = replace_at i x (children n).
Proof.
  destruct n; simpl; try (destruct i; reflexivity); try reflexivity.
  revert i; induction o as [|[k y] o IH]; intros i; simpl; [now destruct i|].
  destruct i; simpl; congruence.
Qed.

Lemma nth_error_replace_at_eq {A} i (x : A) l : i < length l -> nth_error (replace_at i x l) i = Some x.
Proof. revert i; induction l as [|y l IH]; intros [|i]; simpl; try lia; auto. intros; apply IH; lia. Qed.

Lemma nth_error_replace_at_neq {A} i k (x : A) l : k <> i -> nth_error (replace_at i x l) k = nth_error l k.
Proof.
  revert i k; induction l as [|y l IH]; intros [|i] [|k]; simpl; intros; try lia; auto.
Qed.

Lemma length_replace_at {A} i (x : A) l : length (replace_at i x l) = length l.
Proof. revert i; induction l as [|y l IH]; intros [|i]; simpl; auto. Qed.

Lemma subtree_set_subtree_same p x j n :
  subtree p j = Some n -> subtree p (set_subtree p x j) = Some x.
Proof.
  revert j; induction p as [|i p IH]; intros j; simpl; [reflexivity|].
  destruct (nth_error (children j) i) as [c|] eqn:E; [|discriminate]. intros H.
  rewrite children_set_child, nth_error_replace_at_eq; [eauto|]. apply nth_error_Some; congruence.
Qed.

(** Two positions are independent when neither is above the other. *)
Lemma subtree_set_subtree_other p q x j :
  (forall r, q <> p ++ r) -> (forall r, p <> q ++ r) ->
  subtree q (set_subtree p x j) = subtree q j.
Proof.
  revert q j; induction p as [|i p IH]; intros q j H1 H2; simpl.
  - exfalso. apply (H1 q). reflexivity.
  - destruct q as [|k q]; [exfalso; apply (H2 (i :: p)); reflexivity|].
    simpl. destruct (nth_error (children j) i) as [c|] eqn:E; [|reflexivity].
    rewrite children_set_child. destruct (Nat.eq_dec k i) as [->|Hne].
    + rewrite nth_error_replace_at_eq by (apply nth_error_Some; congruence). rewrite E.
      apply IH.
      * intros r ->. apply (H1 r). reflexivity.
      * intros r ->. apply (H2 r). reflexivity.
    + now rewrite nth_error_replace_at_neq.
Qed.

(** ** Which nodes the counter and the maker look at *)
Definition shift (i : nat) (pn : path * json) : path * json := (i :: fst pn, snd pn).

Fixpoint allowed (ps : permissions) (skip : bool) (j : json) : list (path * json) * bool :=
  if may_visit ps j then
    let here := if (skip || may_mutate ps j)%bool then [([], j)] else [] in
    let kids := may_mutate_children ps j in
    let skip1 := if kids then true else skip in
    let (below, skip2) :=
      match j with
      | JArr l =>
          (fix go (i : nat) (skip : bool) (l : list json) : list (path * json) * bool :=
             match l with
             | [] => ([], skip)
             | x :: l =>
                 let (a, skip') := allowed ps skip x in
                 let (b, skip'') := go (S i) skip' l in
                 (map (shift i) a ++ b, skip'')
             end) 0 skip1 l
      | JObj o =>
          (fix go (i : nat) (skip : bool) (o : list (string * json)) : list (path * json) * bool :=
             match o with
             | [] => ([], skip)
             | (_, x) :: o =>
                 let (a, skip') := allowed ps skip x in
                 let (b, skip'') := go (S i) skip' o in
                 (map (shift i) a ++ b, skip'')
             end) 0 skip1 o
      | _ => ([], skip1)
      end in
    (here ++ below, if kids then false else skip2)
  else ([], skip).

Fixpoint allowed_list (ps : permissions) (i : nat) (skip : bool) (l : list json)
  : list (path * json) * bool :=
  match l with
  | [] => ([], skip)
  | x :: l =>
      let (a, skip') := allowed ps skip x in
      let (b, skip'') := allowed_list ps (S i) skip' l in
      (map (shift i) a ++ b, skip'')
  end.

Lemma allowed_unfold ps skip j :
  allowed ps skip j =
  if may_visit ps j then
    let here := if (skip || may_mutate ps j)%bool then [([], j)] else [] in
    let kids := may_mutate_children ps j in
    let (below, skip2) := allowed_list ps 0 (if kids then true else skip) (children j) in
    (here ++ below, if kids then false else skip2)
  else ([], skip).
Proof.
  destruct j; simpl; try reflexivity.
  - destruct (may_visit ps (JArr l)); [|reflexivity].
    match goal with |- (let (_, _) := ?A in _) = (let (_, _) := ?B in _) => assert (E : A = B) end.
    { generalize 0. generalize (if may_mutate_children ps (JArr l) then true else skip).
      induction l as [|x l IH]; intros b i; simpl; [reflexivity|].
      destruct (allowed ps b x) as [a s']. now rewrite IH. }
    now rewrite E.
  - destruct (may_visit ps (JObj o)); [|reflexivity].
    match goal with |- (let (_, _) := ?A in _) = (let (_, _) := ?B in _) => assert (E : A = B) end.
    { generalize 0. generalize (if may_mutate_children ps (JObj o) then true else skip).
      induction o as [|[k x] o IH]; intros b i; simpl; [reflexivity|].
      destruct (allowed ps b x) as [a s']. now rewrite IH. }
    now rewrite E.
Qed.

Lemma allowed_positions ps skip j : subseq (map fst (fst (allowed ps skip j))) (positions j).
Proof.
  revert skip; induction j as [j IH] using json_children_ind. intros skip.
  rewrite allowed_unfold, positions_unfold. destruct (may_visit ps j); [|constructor].
  assert (H : forall i b, subseq (map fst (fst (allowed_list ps i b (children j))))
                                 (positions_list i (children j))).
  { induction IH as [|x l Hx Hl IHl]; intros i b; simpl; [constructor|].
    destruct (allowed ps b x) as [a s'] eqn:Ea.
    destruct (allowed_list ps (S i) s' l) as [c s''] eqn:Ec. simpl. rewrite map_app, map_map. simpl.
    apply subseq_app.
    - specialize (Hx b). rewrite Ea in Hx. simpl in Hx.
      apply (subseq_map (cons i)) in Hx. rewrite map_map in Hx. exact Hx.
    - specialize (IHl (S i) s'). rewrite Ec in IHl. exact IHl. }
  cbv zeta.
  specialize (H 0 (if may_mutate_children ps j then true else skip)).
  destruct (allowed_list ps 0 _ (children j)) as [c s'']. simpl in *.
  destruct (skip || may_mutate ps j)%bool; simpl; constructor; auto.
Qed.

Lemma allowed_list_positions ps i sk l :
  subseq (map fst (fst (allowed_list ps i sk l))) (positions_list i l).
Proof.
  revert i sk; induction l as [|y l IHl]; intros i' sk'; simpl; [constructor|].
  pose proof (allowed_positions ps sk' y) as Hy.
  destruct (allowed ps sk' y) as [a' s'].
  specialize (IHl (S i') s').
  destruct (allowed_list ps (S i') s' l) as [b' s'']. simpl in *.
  rewrite map_app, map_map. simpl. apply subseq_app; auto.
  apply (subseq_map (cons i')) in Hy. rewrite map_map in Hy. exact Hy.
Qed.

Lemma allowed_subtree ps skip j p n :
  In (p, n) (fst (allowed ps skip j)) -> subtree p j = Some n.
Proof.
  revert skip p n; induction j as [j IH] using json_children_ind. intros skip p n.
  rewrite allowed_unfold. destruct (may_visit ps j); [|simpl; tauto].
  assert (H : forall i b p n, In (p, n) (fst (allowed_list ps i b (children j))) ->
     exists k q x, p = k :: q /\ i <= k /\ nth_error (children j) (k - i) = Some x /\ subtree q x = Some n).
  { induction IH as [|x l Hx Hl IHl]; intros i b p' n'; simpl; [tauto|].
    destruct (allowed ps b x) as [a s'] eqn:Ea.
    destruct (allowed_list ps (S i) s' l) as [c s''] eqn:Ec. simpl.
    rewrite in_app_iff, in_map_iff. intros [([q m] & E & Hi)|Hi].
    - simpl in E. inversion E; subst. exists i, q, x. rewrite Nat.sub_diag. repeat split; auto.
      apply (Hx b). rewrite Ea. exact Hi.
    - specialize (IHl (S i) s' p' n'). rewrite Ec in IHl. destruct (IHl Hi) as (k & q & y & -> & Hk & H1 & H2).
      exists k, q, y. repeat split; auto; [lia|]. replace (k - i) with (S (k - S i)) by lia. exact H1. }
  cbv zeta.
  specialize (H 0 (if may_mutate_children ps j then true else skip) p n).
  destruct (allowed_list ps 0 _ (children j)) as [c s'']. simpl in *.
  rewrite in_app_iff. intros [Hi|Hi].
  - destruct (skip || may_mutate ps j)%bool; simpl in Hi; [|tauto].
    destruct Hi as [E|[]]. inversion E; subst. reflexivity.
  - destruct (H Hi) as (k & q & x & -> & _ & H1 & H2). rewrite Nat.sub_0_r in H1. simpl. now rewrite H1.
Qed.

(** ** Counting *)
Fixpoint count_all (ms : mutator_map) (ns : list json) (c : count_table) : res count_table :=
  match ns with
  | [] => Ok c
  | n :: ns => let? c' := count_node ms n c in count_all ms ns c'
  end.

Lemma count_all_app ms a b c :
  count_all ms (a ++ b) c = let? c' := count_all ms a c in count_all ms b c'.
Proof.
  revert c; induction a as [|n a IH]; intros c; simpl; [reflexivity|].
  destruct (count_node ms n c); simpl; auto.
Qed.

Lemma map_snd_shift i (a : list (path * json)) :
  map snd (map (shift i) a) = map snd a.
Proof. rewrite map_map. reflexivity. Qed.

Lemma traverse_count ps ms j s :
  traverse (count_visitor ps ms) j s =
  let? c := count_all ms (map snd (fst (allowed ps (cs_skip s) j))) (cs_table s) in
  Ok ({| cs_table := c; cs_skip := snd (allowed ps (cs_skip s) j) |}, false).
Proof.
  revert s; induction j as [j IH] using json_children_ind. intros s.
  rewrite traverse_unfold, allowed_unfold. simpl.
  destruct (may_visit ps j); [|destruct s; reflexivity].
  assert (H : forall i s, traverse_list (count_visitor ps ms) (children j) s =
     let? c := count_all ms (map snd (fst (allowed_list ps i (cs_skip s) (children j)))) (cs_table s) in
     Ok ({| cs_table := c; cs_skip := snd (allowed_list ps i (cs_skip s) (children j)) |}, false)).
  { induction IH as [|x l Hx Hl IHl]; intros i s0; simpl; [destruct s0; reflexivity|].
    rewrite Hx. destruct (allowed ps (cs_skip s0) x) as [a s'] eqn:Ea.
    cbn [fst snd].
    destruct (allowed_list ps (S i) s' l) as [c s''] eqn:Ec. cbn [fst snd].
    rewrite map_app, count_all_app, map_snd_shift.
    destruct (count_all ms (map snd a) (cs_table s0)) as [c0| | |]; simpl; try reflexivity.
    rewrite (IHl (S i)). simpl. rewrite Ec. reflexivity. }
  destruct (cs_skip s || may_mutate ps j)%bool; simpl.
  - destruct (count_node ms j (cs_table s)) as [c| | |] eqn:Ecn; simpl;
      destruct (allowed_list ps 0 _ (children j)) as [b s''] eqn:Eb; simpl; rewrite Ecn; simpl; try reflexivity.
    rewrite (H 0). destruct (may_mutate_children ps j); simpl; rewrite Eb; simpl;
      destruct (count_all ms (map snd b) c); reflexivity.
  - destruct (allowed_list ps 0 _ (children j)) as [b s''] eqn:Eb; simpl.
    rewrite (H 0). destruct (may_mutate_children ps j); simpl; rewrite Eb; simpl;
      destruct (count_all ms (map snd b) (cs_table s)); reflexivity.
Qed.

Lemma count_mutable_nodes_eq ps ms ast :
  count_mutable_nodes ps ms ast = count_all ms (map snd (fst (allowed ps false ast))) [].
Proof.
  unfold count_mutable_nodes. rewrite traverse_count. simpl.
  destruct (count_all _ _ _); reflexivity.
Qed.

Definition accepts (m : mutator) (n : json) : bool :=
  match mu_mutable m n with Ok b => b | _ => false end.

Definition ct_num (t : mutation_type) (c : count_table) : nat :=
  match ct_get t c with Some k => k | None => 0 end.

Lemma ct_get_bump_same t c : ct_get t (ct_bump t c) = Some (S (ct_num t c)).
Proof.
  unfold ct_num. induction c as [|[t' k] c IH]; simpl; [now rewrite mt_eqb_refl|].
  destruct (mt_eqb t t') eqn:E; simpl; rewrite E; auto.
Qed.

Lemma ct_get_bump_other t t' c : t <> t' -> ct_get t (ct_bump t' c) = ct_get t c.
Proof.
  intros H. induction c as [|[t'' k] c IH]; simpl; [now rewrite mt_eqb_neq|].
  destruct (mt_eqb t' t'') eqn:E; simpl.
  - apply mt_eqb_eq in E; subst. now rewrite mt_eqb_neq.
  - destruct (mt_eqb t t''); auto.
Qed.

Lemma count_node_notin ms n c c' t :
  count_node ms n c = Ok c' -> ~ In t (map fst ms) -> ct_get t c' = ct_get t c.
Proof.
  revert c; induction ms as [|[t' m] ms IH]; simpl; intros c H Hn; [inversion H; auto|].
  destruct (mu_mutable m n) as [b| | |]; simpl in H; try discriminate.
  rewrite (IH _ H) by tauto. destruct b; [|reflexivity]. apply ct_get_bump_other. intuition.
Qed.

Lemma count_node_in ms n c c' t m :
  count_node ms n c = Ok c' -> NoDup (map fst ms) -> In (t, m) ms ->
  exists b, mu_mutable m n = Ok b /\
  ct_get t c' = if b then Some (S (ct_num t c)) else ct_get t c.
Proof.
  revert c; induction ms as [|[t' m'] ms IH]; simpl; intros c H Hn Hi; [tauto|].
  destruct (mu_mutable m' n) as [b| | |] eqn:Em; simpl in H; try discriminate.
  inversion Hn as [|? ? Hni Hn']; subst. destruct Hi as [E|Hi].
  - inversion E; subst. exists b. split; [exact Em|]. rewrite (count_node_notin _ _ _ _ _ H Hni).
    destruct b; [apply ct_get_bump_same|reflexivity].
  - destruct (IH _ H Hn' Hi) as (b' & Hb & Hc). exists b'. split; [exact Hb|].
    assert (t <> t') by (intros ->; apply Hni; apply in_map_iff; exists (t', m); auto).
    rewrite Hc. unfold ct_num. destruct b; rewrite ?ct_get_bump_other by auto; reflexivity.
Qed.

Lemma count_all_in ms ns c c' t m :
  count_all ms ns c = Ok c' -> NoDup (map fst ms) -> In (t, m) ms ->
  (forall n, In n ns -> exists b, mu_mutable m n = Ok b) /\
  ct_num t c' = ct_num t c + length (filter (accepts m) ns) /\
  (ct_get t c <> None -> ct_get t c' <> None) /\
  (ct_get t c = None -> ct_get t c' = None -> filter (accepts m) ns = []) /\
  (ct_get t c = None -> filter (accepts m) ns = [] -> ct_get t c' = None).
Proof.
  intros H Hn Hi; revert c H; induction ns as [|n ns IH]; simpl; intros c H.
  - inversion H; subst. repeat split; auto; tauto.
  - destruct (count_node ms n c) as [c1| | |] eqn:E1; simpl in H; try discriminate.
    destruct (count_node_in _ _ _ _ _ _ E1 Hn Hi) as (b & Hb & Hc).
    destruct (IH _ H) as (A & B & C & D & F). 
    assert (Ha : accepts m n = b) by (unfold accepts; now rewrite Hb). rewrite Ha.
    split; [intros n' [->|Hin]; eauto|].
    unfold ct_num in B. rewrite Hc in B, C, D, F. fold (ct_num t c') in B. destruct b; simpl.
    + rewrite B. split; [lia|]. split; [intros _; apply C; discriminate|].
      split; [intros _ Habs; exfalso; apply C in Habs; auto; discriminate|discriminate].
    + fold (ct_num t c) in B. split; [exact B|]. split; [exact C|]. auto.
Qed.

Lemma count_all_notin ms ns c c' t :
  count_all ms ns c = Ok c' -> ~ In t (map fst ms) -> ct_get t c' = ct_get t c.
Proof.
  intros H Hn; revert c H; induction ns as [|n ns IH]; simpl; intros c H; [inversion H; auto|].
  destruct (count_node ms n c) as [c1| | |] eqn:E1; simpl in H; try discriminate.
  rewrite (IH _ H). eapply count_node_notin; eauto.
Qed.

(** ** The maker *)
Definition at_index (k : nat) (b : bool) (s : maker_state) : maker_state := {|
  mk_index := k; mk_skip := b; mk_node_id := mk_node_id s;
  mk_comment := mk_comment s; mk_result := mk_result s; mk_error := mk_error s;
  mk_rng := mk_rng s
|}.

Definition sel (m : mutator) (a : list (path * json)) : list (path * json) :=
  filter (fun pn => accepts m (snd pn)) a.

(** Outcome at the selected node. *)
Definition hit (idm : json -> option N) (m : mutator) (fuel index : nat) (b : bool)
  (s : maker_state) (j : json) (pn : path * json) : res (json * maker_state * bool) :=
  match mu_mutate m fuel (snd pn) (mk_rng s) with
  | Ok d => Ok (set_subtree (fst pn) (md_node d) j,
                at_index index b (after_mutation idm s d), true)
  | Err e => Ok (j, at_index index b (with_error e s), true)
  | Panic x => Panic x
  | Diverge => Diverge
  end.

Lemma replace_at_same {A} i (x : A) l : nth_error l i = Some x -> replace_at i x l = l.
Proof.
  revert i; induction l as [|y l IH]; intros [|i]; simpl; intros H; try discriminate; auto.
  - congruence.
  - f_equal; auto.
Qed.

Lemma sel_app m a b : sel m (a ++ b) = sel m a ++ sel m b.
Proof. unfold sel. apply filter_app. Qed.

Lemma sel_map m i a :
  sel m (map (shift i) a) = map (shift i) (sel m a).
Proof.
  unfold sel. induction a as [|[p n] a IH]; simpl; [reflexivity|].
  destruct (accepts m n); simpl; rewrite IH; reflexivity.
Qed.

Section Maker.
  Variables (ps : permissions) (idm : json -> option N) (m : mutator) (fuel index : nat).
  Let V := maker_visitor ps idm m fuel index.

  Definition total_on (a : list (path * json)) : Prop :=
    forall p n, In (p, n) a -> exists b, mu_mutable m n = Ok b.

  (** Complete description of the maker's traversal of one subtree. *)
  Definition maker_spec (j : json) : Prop := forall s,
    mk_index s <= index -> total_on (fst (allowed ps (mk_skip s) j)) ->
    match nth_error (sel m (fst (allowed ps (mk_skip s) j))) (index - mk_index s) with
    | Some pn => exists b, traverse_mut V j s = hit idm m fuel index b s j pn
    | None => traverse_mut V j s =
              Ok (j, at_index (mk_index s + length (sel m (fst (allowed ps (mk_skip s) j))))
                              (snd (allowed ps (mk_skip s) j)) s, false)
    end.

  Definition hit_list (b : bool) (s : maker_state) (i : nat) (l : list json) (pn : path * json)
    : res (list json * maker_state * bool) :=
    match fst pn with
    | [] => Diverge
    | k :: q =>
        match nth_error l (k - i) with
        | None => Diverge
        | Some c =>
            match hit idm m fuel index b s c (q, snd pn) with
            | Ok (c', s', st) => Ok (replace_at (k - i) c' l, s', st)
            | Err e => Err e | Panic x => Panic x | Diverge => Diverge
            end
        end
    end.

  Lemma maker_list l : Forall maker_spec l -> forall i s,
    mk_index s <= index -> total_on (fst (allowed_list ps i (mk_skip s) l)) ->
    match nth_error (sel m (fst (allowed_list ps i (mk_skip s) l))) (index - mk_index s) with
    | Some pn => exists b, traverse_mut_list V l s = hit_list b s i l pn
    | None => traverse_mut_list V l s =
              Ok (l, at_index (mk_index s + length (sel m (fst (allowed_list ps i (mk_skip s) l))))
                              (snd (allowed_list ps i (mk_skip s) l)) s, false)
    end.
  Proof.
    induction 1 as [|x l Hx Hl IH]; intros i s Hle Htot.
    - simpl. destruct (index - mk_index s); simpl; rewrite Nat.add_0_r; destruct s; reflexivity.
    - simpl in *. destruct (allowed ps (mk_skip s) x) as [a sk] eqn:Ea.
      destruct (allowed_list ps (S i) sk l) as [c sk2] eqn:Ec. simpl in *.
      rewrite sel_app, sel_map.
      specialize (Hx s Hle). rewrite Ea in Hx. simpl in Hx.
      assert (Ta : total_on a).
      { intros p n Hi. apply (Htot (i :: p) n). apply in_app_iff. left. apply in_map_iff.
        exists (p, n). auto. }
      specialize (Hx Ta).
      destruct (nth_error (sel m a) (index - mk_index s)) as [pn|] eqn:En.
      + assert (Hlt : index - mk_index s < length (sel m a)) by (apply nth_error_Some; congruence).
        rewrite nth_error_app1 by (rewrite map_length; exact Hlt).
        rewrite nth_error_map, En. simpl. destruct Hx as (b & Hx). exists b.
        unfold hit_list. simpl. rewrite Nat.sub_diag. simpl. rewrite Hx. destruct pn as [q n].
        unfold hit; simpl.
        destruct (mu_mutate m fuel n (mk_rng s)); reflexivity.
      + assert (Hge : length (sel m a) <= index - mk_index s) by (apply nth_error_None; exact En).
        rewrite nth_error_app2 by (rewrite map_length; exact Hge). rewrite map_length.
        rewrite Hx. simpl.
        specialize (IH (S i) (at_index (mk_index s + length (sel m a)) sk s)). simpl in IH.
        rewrite Ec in IH. simpl in IH.
        assert (Hle' : mk_index s + length (sel m a) <= index) by lia.
        assert (Tc : total_on c).
        { intros p n Hi. apply (Htot p n). apply in_app_iff. now right. }
        specialize (IH Hle' Tc).
        replace (index - (mk_index s + length (sel m a))) with (index - mk_index s - length (sel m a)) in IH by lia.
        destruct (nth_error (sel m c) (index - mk_index s - length (sel m a))) as [pn|] eqn:En2.
        * destruct IH as (b & IH). exists b. rewrite IH.
          assert (Hpn : exists k q, fst pn = k :: q /\ S i <= k).
          { apply nth_error_In in En2. unfold sel in En2. apply filter_In in En2. destruct En2 as [Hin _].
            assert (Hs : subseq (map fst c) (positions_list (S i) l)).
            { pose proof (f_equal fst Ec) as Ec'. simpl in Ec'. rewrite <- Ec'.
              apply allowed_list_positions. }
            eapply subseq_In in Hs; [|apply in_map; exact Hin].
            apply positions_list_head in Hs. exact Hs. }
          destruct Hpn as (k & q & Ek & Hk). unfold hit_list. rewrite Ek.
          replace (k - i) with (S (k - S i)) by lia. simpl.
          destruct (nth_error l (k - S i)) as [y|]; simpl; [|reflexivity].
          unfold hit; simpl. destruct (mu_mutate m fuel (snd pn) (mk_rng s)); reflexivity.
        * rewrite IH. simpl. rewrite app_length, map_length, Nat.add_assoc. reflexivity.
  Qed.

  Lemma maker_correct j : maker_spec j.
  Proof.
    induction j as [j IH] using json_children_ind. intros s Hle Htot.
    rewrite traverse_mut_unfold. rewrite allowed_unfold in *. unfold V. simpl vm_perm.
    destruct (may_visit ps j); [|simpl in *; destruct (index - mk_index s); simpl;
                                 rewrite Nat.add_0_r; destruct s; reflexivity].
    cbv zeta in *.
    pose proof (maker_list (children j) IH 0) as HL.
    assert (Hwhere : forall sk pn, In pn (fst (allowed_list ps 0 sk (children j))) ->
       exists k q c, fst pn = k :: q /\ nth_error (children j) k = Some c).
    { clear. intros sk [p n] Hi.
      assert (Hs : subseq (map fst (fst (allowed_list ps 0 sk (children j)))) (positions_list 0 (children j))).
      { apply allowed_list_positions. }
      eapply subseq_In in Hs; [|apply in_map; exact Hi]. simpl in Hs.
      destruct (positions_list_head _ _ _ Hs) as (k & q & -> & _).
      apply positions_list_In in Hs. destruct Hs as (c & _ & Hc & _). rewrite Nat.sub_0_r in Hc.
      exists k, q, c. auto. }
    (* one step for the children, from a state [s1] with index [k] *)
    assert (Hkids : forall s1, mk_index s1 <= index -> mk_rng s1 = mk_rng s ->
      (forall p n, In (p, n) (fst (allowed_list ps 0 (mk_skip s1) (children j))) ->
                   exists b, mu_mutable m n = Ok b) ->
      match nth_error (sel m (fst (allowed_list ps 0 (mk_skip s1) (children j)))) (index - mk_index s1) with
      | Some pn => exists b,
          (let? (l', s3, stop) := traverse_mut_list V (children j) s1 in
           Ok (set_children j l',
               (if may_mutate_children ps (set_children j l') then with_skip false s3 else s3), stop))
          = hit idm m fuel index b s1 j pn
      | None =>
          (let? (l', s3, stop) := traverse_mut_list V (children j) s1 in
           Ok (set_children j l',
               (if may_mutate_children ps (set_children j l') then with_skip false s3 else s3), stop))
          = Ok (j, at_index (mk_index s1 + length (sel m (fst (allowed_list ps 0 (mk_skip s1) (children j)))))
                 (if may_mutate_children ps j then false
                  else snd (allowed_list ps 0 (mk_skip s1) (children j))) s1, false)
      end).
    { intros s1 Hle1 Hr Ht. specialize (HL s1 Hle1 Ht).
      destruct (nth_error (sel m _) (index - mk_index s1)) as [pn|] eqn:En.
      - destruct HL as (b & ->). apply nth_error_In in En. unfold sel in En. apply filter_In in En.
        destruct En as [Hin _]. destruct (Hwhere _ _ Hin) as (k & q & c & Ek & Ec).
        unfold hit_list. rewrite Ek, Nat.sub_0_r, Ec. unfold hit. simpl. rewrite Ek. simpl. rewrite Ec.
        destruct (mu_mutate m fuel (snd pn) (mk_rng s1)) as [d|e|x|] eqn:Emu; simpl.
        + rewrite set_child_set_children by (apply nth_error_Some; congruence).
          match goal with |- exists _, Ok (_, if ?c then _ else _, _) = _ => destruct c end; [exists false|exists b]; reflexivity.
        + rewrite (replace_at_same _ _ _ Ec), set_children_same.
          match goal with |- exists _, Ok (_, if ?c then _ else _, _) = _ => destruct c end; [exists false|exists b]; reflexivity.
        + exists b; reflexivity.
        + exists b; reflexivity.
      - rewrite HL. simpl. rewrite set_children_same.
        destruct (may_mutate_children ps j); reflexivity. }
    destruct (allowed_list ps 0 (if may_mutate_children ps j then true else mk_skip s) (children j))
      as [below sk2] eqn:Eb. simpl in Htot. cbn [fst snd] in *.
    assert (Hrest : forall s1, mk_skip s1 = mk_skip s -> mk_index s1 <= index -> mk_rng s1 = mk_rng s ->
      (forall p n, In (p, n) below -> exists b, mu_mutable m n = Ok b) ->
      match nth_error (sel m below) (index - mk_index s1) with
      | Some pn => exists b,
          (let? (l', s3, stop) := traverse_mut_list V (children j)
                (if may_mutate_children ps j then with_skip true s1 else s1) in
           Ok (set_children j l',
               (if may_mutate_children ps (set_children j l') then with_skip false s3 else s3), stop))
          = hit idm m fuel index b s1 j pn
      | None =>
          (let? (l', s3, stop) := traverse_mut_list V (children j)
                (if may_mutate_children ps j then with_skip true s1 else s1) in
           Ok (set_children j l',
               (if may_mutate_children ps (set_children j l') then with_skip false s3 else s3), stop))
          = Ok (j, at_index (mk_index s1 + length (sel m below))
                 (if may_mutate_children ps j then false else sk2) s1, false)
      end).
    { intros s1 Hsk Hle1 Hr Ht.
      specialize (Hkids (if may_mutate_children ps j then with_skip true s1 else s1)).
      destruct (may_mutate_children ps j); simpl in Hkids; rewrite ?Hsk, Eb in Hkids; simpl in Hkids;
        specialize (Hkids Hle1 Hr Ht); exact Hkids. }
    simpl vm_visit.
    destruct (mk_skip s || may_mutate ps j)%bool eqn:Ep.
    - destruct (Htot [] j) as [b Hb]; [now left|].
      assert (Tb : forall p n, In (p, n) below -> exists b, mu_mutable m n = Ok b).
      { intros p n Hi. apply (Htot p n). now right. }
      simpl sel. unfold sel in *. cbn [filter app]. unfold accepts at 1 3 4. cbn [snd]. rewrite Hb. cbn [bind].
      destruct b.
      + destruct (Nat.eqb_spec (mk_index s) index) as [Hi|Hi].
        * replace (index - mk_index s) with 0 by lia. cbn [nth_error].
          unfold hit; cbn [fst snd set_subtree]. exists (mk_skip s).
          destruct (mu_mutate m fuel j (mk_rng s)) as [d|e|x|]; cbn [bind]; rewrite <- ?Hi; reflexivity.
        * replace (index - mk_index s) with (S (index - S (mk_index s))) by lia. cbn [nth_error].
          cbn [bind]. simpl vm_children. cbv iota.
          specialize (Hrest (bump_index s)). simpl in Hrest.
          specialize (Hrest eq_refl ltac:(lia) eq_refl Tb).
          destruct (nth_error (filter _ below) (index - S (mk_index s))) as [pn|].
          -- destruct Hrest as (b & Hrest). exists b. exact Hrest.
          -- simpl. rewrite Nat.add_succ_r. exact Hrest.
      + cbn [bind]. simpl vm_children. cbv iota.
        specialize (Hrest s eq_refl Hle eq_refl Tb).
        destruct (nth_error (filter _ below) (index - mk_index s)) as [pn|].
        -- destruct Hrest as (b & Hrest). exists b. exact Hrest.
        -- exact Hrest.
    - cbn [app bind]. simpl vm_children. cbv iota.
      specialize (Hrest s eq_refl Hle eq_refl Htot).
      destruct (nth_error (sel m below) (index - mk_index s)) as [pn|].
      -- destruct Hrest as (b & Hrest). exists b. exact Hrest.
      -- exact Hrest.
  Qed.
End Maker.
