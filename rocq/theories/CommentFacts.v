(** Lemmas about comment insertion. *)
From Coq Require Import String List NArith ZArith Bool Lia.
From Verif Require Import Base Json JsonFacts Traverse OpCommon SolMutators VyMutators Comments
  SpecTree SpecMutation TraverseFacts TraverseFacts3 SpecOps OpFacts SpecComments.
Import ListNotations.
Open Scope string_scope.
Open Scope list_scope.

(** ** Searching and updating by id *)
Fixpoint find_list (idm : json -> option N) (id : N) (l : list json) : option json :=
  match l with
  | [] => None
  | x :: l => match find_id idm id x with Some n => Some n | None => find_list idm id l end
  end.

Fixpoint upd_list (idm : json -> option N) (id : N) (f : json -> json) (l : list json) : option (list json) :=
  match l with
  | [] => None
  | x :: l => match upd_id idm id f x with
              | Some x' => Some (x' :: l)
              | None => option_map (cons x) (upd_list idm id f l)
              end
  end.

Lemma find_id_unfold idm id j :
  find_id idm id j =
  if match idm j with Some i => N.eqb i id | None => false end then Some j
  else find_list idm id (children j).
Proof.
  assert (H : forall o, (fix go o := match o with
                     | [] => None
                     | (_, x) :: o => match find_id idm id x with
                                      | Some n => Some n
                                      | None => go o
                                      end
                     end) o = find_list idm id (map (@snd string json) o)).
  { induction o as [|[k x] o IH]; simpl; [reflexivity|]. now rewrite IH. }
  assert (HA : forall l, (fix go l := match l with
                     | [] => None
                     | x :: l => match find_id idm id x with
                                 | Some n => Some n
                                 | None => go l
                                 end
                     end) l = find_list idm id l).
  { induction l as [|x l IH]; simpl; [reflexivity|]. now rewrite IH. }
  destruct j; simpl; try rewrite H; try rewrite HA;
    (destruct (idm _) as [i|]; [destruct (N.eqb i id)|]; reflexivity).
Qed.

Lemma upd_id_unfold idm id f j :
  upd_id idm id f j =
  if match idm j with Some i => N.eqb i id | None => false end then Some (f j)
  else option_map (set_children j) (upd_list idm id f (children j)).
Proof.
  assert (H : forall o, option_map JObj
          ((fix go o := match o with
                        | [] => None
                        | (k, x) :: o => match upd_id idm id f x with
                                         | Some x' => Some ((k, x') :: o)
                                         | None => option_map (cons (k, x)) (go o)
                                         end
                        end) o) =
     option_map (fun l => JObj (zip_values o l)) (upd_list idm id f (map (@snd string json) o))).
  { intros o.
    match goal with |- option_map _ ?A = _ =>
      assert (E : A = option_map (zip_values o) (upd_list idm id f (map (@snd string json) o))) end.
    { induction o as [|[k x] o IH]; simpl; [reflexivity|].
      destruct (upd_id idm id f x); simpl; [now rewrite zip_values_same|].
      rewrite IH. destruct (upd_list _ _ _ _); reflexivity. }
    rewrite E. destruct (upd_list _ _ _ _); reflexivity. }
  assert (HA : forall l, (fix go l := match l with
                        | [] => None
                        | x :: l => match upd_id idm id f x with
                                    | Some x' => Some (x' :: l)
                                    | None => option_map (cons x) (go l)
                                    end
                        end) l = upd_list idm id f l).
  { induction l as [|x l IH]; simpl; [reflexivity|]. now rewrite IH. }
  destruct j; simpl; try rewrite H; try rewrite HA;
    (destruct (idm _) as [i|]; [destruct (N.eqb i id)|]; reflexivity).
Qed.

Lemma find_id_none idm id j :
  find_id idm id j = None <-> forall p n, subtree p j = Some n -> idm n <> Some id.
Proof.
  induction j as [j IH] using json_children_ind. rewrite find_id_unfold.
  assert (HL : find_list idm id (children j) = None <->
               forall x, In x (children j) -> find_id idm id x = None).
  { clear IH. induction (children j) as [|x l IHl]; simpl; [split; [contradiction|auto]|].
    destruct (find_id idm id x) eqn:E.
    - split; [discriminate|]. intros H. specialize (H x (or_introl eq_refl)). congruence.
    - rewrite IHl. split.
      + intros H y [<-|Hy]; auto.
      + intros H y Hy. auto. }
  rewrite Forall_forall in IH.
  destruct (match idm j with Some i => N.eqb i id | None => false end) eqn:E.
  - split; [discriminate|]. intros H. exfalso. apply (H [] j eq_refl).
    destruct (idm j); [|discriminate]. apply N.eqb_eq in E. congruence.
  - rewrite HL. split.
    + intros H [|i p] n Hn.
      * simpl in Hn. injection Hn as <-. intros Hi. rewrite Hi, N.eqb_refl in E. discriminate.
      * simpl in Hn. destruct (nth_error (children j) i) as [x|] eqn:Ex; [|discriminate].
        apply nth_error_In in Ex. eapply (proj1 (IH x Ex)); eauto.
    + intros H x Hx. apply IH; [exact Hx|]. intros p n Hn.
      apply In_nth_error in Hx. destruct Hx as [i Hi]. apply (H (i :: p)). simpl. now rewrite Hi.
Qed.

Lemma set_child_zip j i x :
  i < length (children j) -> set_child i x j = set_children j (replace_at i x (children j)).
Proof. apply set_child_set_children. Qed.

Lemma find_id_some idm id j n :
  find_id idm id j = Some n ->
  exists p, subtree p j = Some n /\ idm n = Some id /\
    forall f, upd_id idm id f j = Some (set_subtree p (f n) j).
Proof.
  induction j as [j IH] using json_children_ind. rewrite find_id_unfold.
  destruct (match idm j with Some i => N.eqb i id | None => false end) eqn:E.
  - intros H. injection H as <-. exists []. split; [reflexivity|]. split.
    + destruct (idm j); [|discriminate]. apply N.eqb_eq in E. congruence.
    + intros f. rewrite upd_id_unfold, E. reflexivity.
  - intros H.
    assert (HL : exists i x p, nth_error (children j) i = Some x /\ subtree p x = Some n /\
              idm n = Some id /\
              forall f, upd_list idm id f (children j) =
                        Some (replace_at i (set_subtree p (f n) x) (children j))).
    { revert IH H. clear E. generalize (children j). intros l IH H.
      induction IH as [|x l Hx HF IHl]; simpl in H; [discriminate|].
      destruct (find_id idm id x) as [m|] eqn:Ef.
      - injection H as ->. destruct (Hx eq_refl) as (p & Hp & Hi & Hu).
        exists 0, x, p. split; [reflexivity|]. split; [exact Hp|]. split; [exact Hi|].
        intros f. simpl. now rewrite Hu.
      - destruct (IHl H) as (i & y & p & Hy & Hp & Hi & Hu).
        exists (S i), y, p. split; [exact Hy|]. split; [exact Hp|]. split; [exact Hi|].
        intros f. simpl.
        assert (Hn : upd_id idm id f x = None).
        { clear - Ef. revert Ef. induction x as [x IH] using json_children_ind.
          rewrite find_id_unfold, upd_id_unfold.
          destruct (match idm x with Some i => N.eqb i id | None => false end); [discriminate|].
          intros H. assert (E : upd_list idm id f (children x) = None); [|now rewrite E].
          revert H. induction IH as [|y l Hy HF IHl]; simpl; [auto|].
          destruct (find_id idm id y); [discriminate|]. rewrite (Hy eq_refl).
          intros H. now rewrite (IHl H). }
        rewrite Hn, Hu. reflexivity. }
    destruct HL as (i & x & p & Hx & Hp & Hi & Hu).
    exists (i :: p). split; [simpl; now rewrite Hx|]. split; [exact Hi|].
    intros f. rewrite upd_id_unfold, E, Hu. simpl. rewrite Hx.
    rewrite set_child_set_children; [reflexivity|].
    apply nth_error_Some. rewrite Hx. discriminate.
Qed.

Lemma has_id_true idm id x : has_id idm id x = true <-> contains idm id x.
Proof.
  unfold has_id, contains. destruct (find_id idm id x) as [n|] eqn:E.
  - split; [|reflexivity]. intros _. apply find_id_some in E. destruct E as (p & H1 & H2 & _). eauto.
  - split; [discriminate|]. intros (p & n & H1 & H2).
    exfalso. exact (proj1 (find_id_none idm id x) E p n H1 H2).
Qed.

Lemma has_id_false idm id x : has_id idm id x = false <-> ~ contains idm id x.
Proof.
  rewrite <- has_id_true. destruct (has_id idm id x); split; intros H; congruence.
Qed.

(** ** Arrays *)
Lemma insert_in_array_spec idm id c l :
  match insert_in_array idm id c l with
  | (l', true) => before_first idm id c l l'
  | (l', false) => l' = l /\ forall x, In x l -> ~ contains idm id x
  end.
Proof.
  induction l as [|x l IH]; simpl; [split; [reflexivity|tauto]|].
  destruct (has_id idm id x) eqn:E.
  - exists [], x, l. simpl. split; [reflexivity|]. split; [reflexivity|].
    split; [now apply has_id_true|tauto].
  - apply has_id_false in E. destruct (insert_in_array idm id c l) as [l' b]. destruct b.
    + destruct IH as (l1 & y & l2 & -> & -> & Hy & Hl). exists (x :: l1), y, l2. simpl.
      split; [reflexivity|]. split; [reflexivity|]. split; [exact Hy|].
      intros z [<-|Hz]; auto.
    + destruct IH as (-> & Hl). split; [reflexivity|]. intros z [<-|Hz]; auto.
Qed.

Lemma insert_in_array_found idm id c l :
  snd (insert_in_array idm id c l) = found_in_array idm id l.
Proof.
  unfold found_in_array. induction l as [|x l IH]; simpl; [reflexivity|].
  destruct (has_id idm id x); [reflexivity|]. simpl.
  destruct (insert_in_array idm id c l). exact IH.
Qed.

Lemma found_in_array_true idm id l :
  found_in_array idm id l = true <-> exists x, In x l /\ contains idm id x.
Proof.
  unfold found_in_array. rewrite existsb_exists. split; intros (x & H1 & H2); exists x; split; auto;
    now apply has_id_true.
Qed.

(** ** Fields *)
Lemma assoc_index k (o : list (string * json)) v :
  assoc k o = Some v <->
  exists i, nth_error o i = Some (k, v) /\ (forall j w, j < i -> nth_error o j <> Some (k, w)).
Proof.
  induction o as [|[k' v'] o IH]; simpl.
  - split; [discriminate|]. intros (i & H & _). destruct i; discriminate.
  - destruct (String.eqb_spec k k') as [E|E].
    + split.
      * intros H. injection H as <-. subst k'. exists 0. split; [reflexivity|]. intros j w Hj. lia.
      * intros (i & H & Hm). destruct i as [|i]; [simpl in H; congruence|].
        exfalso. apply (Hm 0 v'); [lia|]. simpl. congruence.
    + rewrite IH. split.
      * intros (i & H & Hm). exists (S i). split; [exact H|]. intros [|j] w Hj; simpl; [congruence|].
        apply Hm. lia.
      * intros (i & H & Hm). destruct i as [|i]; [simpl in H; congruence|].
        exists i. split; [exact H|]. intros j w Hj. apply (Hm (S j)). lia.
Qed.

Lemma obj_set_index k o i v x :
  nth_error o i = Some (k, v) -> (forall j w, j < i -> nth_error o j <> Some (k, w)) ->
  obj_set k x o = set_value i x o.
Proof.
  revert i; induction o as [|[k' v'] o IH]; intros i H Hm; [destruct i; discriminate|].
  destruct i as [|i]; simpl in *.
  - injection H as -> ->. now rewrite String.eqb_refl.
  - destruct (String.eqb_spec k k') as [E|E].
    + exfalso. apply (Hm 0 v'); [lia|]. simpl. congruence.
    + f_equal. apply IH; [exact H|]. intros j w Hj. apply (Hm (S j)). lia.
Qed.

Lemma field_at_oget n k v : oget n k = Some v <-> exists i, field_at n i k v.
Proof.
  destruct n; simpl;
    try (split; [discriminate|]; intros (i & o' & H & _); discriminate).
  rewrite assoc_index. split.
  - intros (i & H & Hm). exists i, o. auto.
  - intros (i & o' & H & Hi & Hm). injection H as <-. eauto.
Qed.

Lemma field_at_subtree n i k v : field_at n i k v -> subtree [i] n = Some v.
Proof.
  intros (o & -> & H & _). simpl. rewrite nth_error_map, H. reflexivity.
Qed.

Lemma field_at_set n i k v x : field_at n i k v ->
  exists o, n = JObj o /\ assoc k o = Some v /\ JObj (obj_set k x o) = set_subtree [i] x n.
Proof.
  intros (o & -> & H & Hm). exists o. split; [reflexivity|]. split.
  - apply assoc_index. eauto.
  - simpl. rewrite nth_error_map, H. simpl. f_equal. eapply obj_set_index; eauto.
Qed.

Lemma set_value_self i o k v : nth_error o i = Some (k, v) -> set_value i v o = o.
Proof.
  revert i; induction o as [|[k' v'] o IH]; intros [|i]; simpl; intros H; try discriminate.
  - injection H as -> ->. reflexivity.
  - f_equal. now apply IH.
Qed.

Lemma set_field_self n i k v : field_at n i k v -> set_subtree [i] v n = n.
Proof.
  intros (o & -> & H & _). simpl. rewrite nth_error_map, H. simpl. f_equal.
  eapply set_value_self; eauto.
Qed.

(** ** Composition of replacements *)
Lemma subtree_app p q j n : subtree p j = Some n -> subtree (p ++ q) j = subtree q n.
Proof.
  revert j; induction p as [|i p IH]; intros j; simpl.
  - intros H. injection H as ->. reflexivity.
  - destruct (nth_error (children j) i); [apply IH|discriminate].
Qed.

Lemma set_subtree_app p q x j n :
  subtree p j = Some n -> set_subtree p (set_subtree q x n) j = set_subtree (p ++ q) x j.
Proof.
  revert j; induction p as [|i p IH]; intros j; simpl.
  - intros H. injection H as ->. reflexivity.
  - destruct (nth_error (children j) i) as [y|]; [|discriminate].
    intros H. now rewrite (IH y H).
Qed.

Lemma replace_at_self {A} i (x : A) l : nth_error l i = Some x -> replace_at i x l = l.
Proof.
  revert i; induction l as [|y l IH]; intros [|i]; simpl; intros H; try discriminate; try congruence.
  f_equal. now apply IH.
Qed.

Lemma set_subtree_self p j n : subtree p j = Some n -> set_subtree p n j = j.
Proof.
  revert j; induction p as [|i p IH]; intros j; simpl; [congruence|].
  destruct (nth_error (children j) i) as [y|] eqn:E; [|discriminate].
  intros H. rewrite (IH y H). rewrite set_child_set_children.
  - rewrite replace_at_self by exact E. apply set_children_same.
  - apply nth_error_Some. rewrite E. discriminate.
Qed.

(** ** Insertion into the array under a key *)
Lemma insert_under_spec idm k id c n : plain_key k = true ->
  match insert_under idm k id c n with
  | (n', true) => exists i l l', field_at n i k (JArr l) /\ before_first idm id c l l' /\
                    n' = set_subtree [i] (JArr l') n
  | (n', false) => n' = n /\ forall l, oget n k = Some (JArr l) -> forall x, In x l -> ~ contains idm id x
  end.
Proof.
  intros Hk. unfold insert_under. rewrite get_array_plain by exact Hk.
  destruct (oget n k) as [v|] eqn:E; [|split; [reflexivity|discriminate]].
  destruct v; simpl; try (split; [reflexivity|discriminate]).
  pose proof (insert_in_array_spec idm id c l) as H.
  apply field_at_oget in E. destruct E as (i & Hi).
  destruct (insert_in_array idm id c l) as [l' b].
  rewrite upd_array_plain by exact Hk.
  destruct (field_at_set n i k (JArr l) (JArr l') Hi) as (o & -> & Ha & Hs). rewrite Ha.
  destruct b.
  - exists i, l, l'. split; [exact Hi|]. split; [exact H|]. exact Hs.
  - destruct H as (-> & H). split.
    + rewrite Hs. eapply set_field_self; eauto.
    + intros l0 Hl. injection Hl as <-. exact H.
Qed.

Lemma insert_under_found idm k id c n :
  snd (insert_under idm k id c n) = found_under idm k id n.
Proof.
  unfold insert_under, found_under. destruct (get_array n k) as [l|]; [|reflexivity].
  pose proof (insert_in_array_found idm id c l). destruct (insert_in_array idm id c l). exact H.
Qed.

(** ** The search along the path *)
Section FIRST.
  Variables (idm : json -> option N) (member : json -> N -> bool)
            (insert : json -> N -> json -> json) (ast c : json) (id : N).

  (** Which id of the list is served, if any. *)
  Lemma insert_first_spec ups :
    (exists ups1 up ups2 p n, ups = ups1 ++ up :: ups2 /\ subtree p ast = Some n /\
       idm n = Some up /\ member n id = true /\
       insert_first idm member insert ast c id ups = set_subtree p (insert n id c) ast /\
       (forall u, In u ups1 -> sole idm u ast ->
          forall q m, subtree q ast = Some m -> idm m = Some u -> member m id = false)) \/
    (insert_first idm member insert ast c id ups = ast /\
     forall u, In u ups -> sole idm u ast ->
       forall q m, subtree q ast = Some m -> idm m = Some u -> member m id = false).
  Proof.
    induction ups as [|up ups IH]; simpl; [right; split; [reflexivity|contradiction]|].
    assert (Hskip : (exists node, find_id idm up ast = Some node /\ member node id = false) \/
                    find_id idm up ast = None ->
       sole idm up ast -> forall q m, subtree q ast = Some m -> idm m = Some up -> member m id = false).
    { intros [(node & Hf & Hm)|Hf] Hs q m Hq Hi.
      - apply find_id_some in Hf. destruct Hf as (p & Hp & Hpi & _).
        assert (p = q) by (eapply Hs; eauto). subst q. congruence.
      - exfalso. exact (proj1 (find_id_none idm up ast) Hf q m Hq Hi). }
    assert (Hnext : ((exists node, find_id idm up ast = Some node /\ member node id = false) \/
                    find_id idm up ast = None) ->
      (exists ups1 up0 ups2 p n, up :: ups = ups1 ++ up0 :: ups2 /\ subtree p ast = Some n /\
       idm n = Some up0 /\ member n id = true /\
       insert_first idm member insert ast c id ups = set_subtree p (insert n id c) ast /\
       (forall u, In u ups1 -> sole idm u ast ->
          forall q m, subtree q ast = Some m -> idm m = Some u -> member m id = false)) \/
      (insert_first idm member insert ast c id ups = ast /\
       forall u, up = u \/ In u ups -> sole idm u ast ->
         forall q m, subtree q ast = Some m -> idm m = Some u -> member m id = false)).
    { intros Hn. specialize (Hskip Hn).
      destruct IH as [(ups1 & up0 & ups2 & p & n & -> & Hp & Hi & Hm & He & Hu)|(He & Hu)].
      - left. exists (up :: ups1), up0, ups2, p, n. simpl.
        split; [reflexivity|]. split; [exact Hp|]. split; [exact Hi|]. split; [exact Hm|].
        split; [exact He|]. intros u [<-|Hin]; [exact Hskip|exact (Hu u Hin)].
      - right. split; [exact He|]. intros u [<-|Hin]; [exact Hskip|exact (Hu u Hin)]. }
    destruct (find_id idm up ast) as [node|] eqn:Ef; [|apply Hnext; auto].
    destruct (member node id) eqn:Em; [|apply Hnext; eauto].
    left. apply find_id_some in Ef. destruct Ef as (p & Hp & Hi & Hu).
    exists [], up, ups, p, node. simpl. rewrite Hu.
    split; [reflexivity|]. split; [exact Hp|]. split; [exact Hi|]. split; [exact Em|].
    split; [reflexivity|]. contradiction.
  Qed.
End FIRST.

(** ** Types of nodes *)
Lemma is_sol_get t n : is_sol t n <-> get_str n "nodeType" = Some t.
Proof. unfold is_sol, has_field. now rewrite get_str_Some by reflexivity. Qed.
Lemma is_vy_get t n : is_vy t n <-> get_str n "ast_type" = Some t.
Proof. unfold is_vy, has_field. now rewrite get_str_Some by reflexivity. Qed.

Lemma field_at_fun n i j k v w : field_at n i k v -> field_at n j k w -> i = j /\ v = w.
Proof.
  intros (o & -> & H1 & H2) (o' & E & H3 & H4). injection E as <-.
  assert (i = j).
  { destruct (Nat.lt_trichotomy i j) as [L|[L|L]]; [|exact L|].
    - exfalso. exact (H4 i v L H1).
    - exfalso. exact (H2 j w L H3). }
  subst j. split; [reflexivity|]. congruence.
Qed.

Lemma found_under_true idm k id n : plain_key k = true ->
  found_under idm k id n = true <->
  exists i l x, field_at n i k (JArr l) /\ In x l /\ contains idm id x.
Proof.
  intros Hk. unfold found_under. rewrite get_array_plain by exact Hk. split.
  - destruct (oget n k) as [v|] eqn:E; [|discriminate]. destruct v; simpl; try discriminate.
    intros H. apply found_in_array_true in H. destruct H as (x & H1 & H2).
    apply field_at_oget in E. destruct E as (i & Hi). exists i, l, x. auto.
  - intros (i & l & x & Hi & H1 & H2).
    assert (E : oget n k = Some (JArr l)) by (apply field_at_oget; eauto).
    rewrite E. simpl. apply found_in_array_true. eauto.
Qed.

Lemma insert_under_true idm k id c n : plain_key k = true -> found_under idm k id n = true ->
  exists i l l', field_at n i k (JArr l) /\ before_first idm id c l l' /\
    fst (insert_under idm k id c n) = set_subtree [i] (JArr l') n.
Proof.
  intros Hk Hf. pose proof (insert_under_spec idm k id c n Hk) as H.
  pose proof (insert_under_found idm k id c n) as Hs. rewrite Hf in Hs.
  destruct (insert_under idm k id c n) as [n' b]. simpl in *. subst b. exact H.
Qed.

Lemma insert_under_false idm k id c n : plain_key k = true -> found_under idm k id n = false ->
  insert_under idm k id c n = (n, false).
Proof.
  intros Hk Hf. pose proof (insert_under_spec idm k id c n Hk) as H.
  pose proof (insert_under_found idm k id c n) as Hs. rewrite Hf in Hs.
  destruct (insert_under idm k id c n) as [n' b]. simpl in *. subst b. destruct H as (-> & _). reflexivity.
Qed.

Lemma before_first_in idm id c l l' : before_first idm id c l l' ->
  exists x, In x l /\ contains idm id x.
Proof.
  intros (l1 & x & l2 & -> & _ & H & _). exists x. split; [|exact H].
  apply in_or_app. right. left. reflexivity.
Qed.

(** ** Vyper *)
Lemma vy_insert_true n id c : vy_member n id = true ->
  exists q l l', vy_home id n q l /\ before_first vy_id id c l l' /\
    subtree q n = Some (JArr l) /\ vy_insert n id c = set_subtree q (JArr l') n.
Proof.
  unfold vy_member, vy_insert, is_ast_in, is_ast.
  destruct (get_str n "ast_type") as [t|] eqn:Et; [|discriminate].
  assert (Hty : is_vy t n) by now apply is_vy_get.
  assert (G : forall k, In (t, k) vy_lists -> plain_key k = true -> found_under vy_id k id n = true ->
     exists q l l', vy_home id n q l /\ before_first vy_id id c l l' /\
       subtree q n = Some (JArr l) /\ fst (insert_under vy_id k id c n) = set_subtree q (JArr l') n).
  { intros k Hin Hk Hf. destruct (insert_under_true vy_id k id c n Hk Hf) as (i & l & l' & Hi & Hb & He).
    exists [i], l, l'. split; [|split; [exact Hb|split; [eapply field_at_subtree; eauto|exact He]]].
    exists t, k, i. split; [exact Hin|]. split; [exact Hty|]. split; [exact Hi|]. split; [reflexivity|].
    eapply before_first_in; eauto. }
  destruct (smem t ["For"; "FunctionDef"; "Module"]) eqn:Es.
  - apply G; [|reflexivity]. apply smem_In' in Es. simpl in Es.
    destruct Es as [<-|[<-|[<-|[]]]]; simpl; auto.
  - destruct (String.eqb_spec t "If") as [E|]; [|discriminate]. subst t. intros H.
    destruct (found_under vy_id "body" id n) eqn:Eb.
    + destruct (G "body") as (q & l & l' & H1 & H2 & H3 & H4); [simpl; auto|reflexivity|exact Eb|].
      exists q, l, l'. split; [exact H1|]. split; [exact H2|]. split; [exact H3|].
      pose proof (insert_under_found vy_id "body" id c n) as Hs. rewrite Eb in Hs.
      destruct (insert_under vy_id "body" id c n). simpl in Hs. subst b. exact H4.
    + simpl in H. rewrite (insert_under_false vy_id "body" id c n) by (auto; reflexivity).
      destruct (G "orelse") as (q & l & l' & H1); [simpl; tauto|reflexivity|exact H|]. eauto.
Qed.

Lemma vy_member_false n id : vy_member n id = false -> forall q l, ~ vy_home id n q l.
Proof.
  unfold vy_member, is_ast_in, is_ast. intros H q l (t & k & i & Hin & Ht & Hi & _ & x & Hx & Hc).
  apply is_vy_get in Ht. rewrite Ht in H.
  assert (F : plain_key k = true -> found_under vy_id k id n = true).
  { intros Hk. apply found_under_true; [exact Hk|]. exists i, l, x. auto. }
  simpl in Hin. destruct Hin as [E|[E|[E|[E|[E|[]]]]]]; injection E as <- <-; simpl in H;
    rewrite (F eq_refl) in H; try discriminate.
  now rewrite orb_true_r in H.
Qed.

Lemma rev_path {A} (path : list A) (d : A) :
  rev path = match path with [] => [] | _ => last path d :: rev (removelast path) end.
Proof.
  destruct path as [|x l]; [reflexivity|].
  rewrite (app_removelast_last (l := x :: l) d) at 1 by discriminate.
  now rewrite rev_app_distr.
Qed.

Lemma rev_split {A} (l : list A) a x b : rev l = a ++ x :: b -> l = rev b ++ x :: rev a.
Proof.
  intros H. rewrite <- (rev_involutive l), H, rev_app_distr. simpl. now rewrite <- app_assoc.
Qed.

Lemma insert_by_path_spec idm member insert ast c path :
  let ast' := insert_comment_by_path idm member insert ast c path in
  let id := last path 0%N in
  (exists outer up inner p n, removelast path = outer ++ up :: inner /\ subtree p ast = Some n /\
     idm n = Some up /\ member n id = true /\ ast' = set_subtree p (insert n id c) ast /\
     forall u, In u inner -> sole idm u ast ->
       forall q m, subtree q ast = Some m -> idm m = Some u -> member m id = false) \/
  (ast' = ast /\ forall u, In u (removelast path) -> sole idm u ast ->
     forall q m, subtree q ast = Some m -> idm m = Some u -> member m id = false).
Proof.
  cbv zeta. unfold insert_comment_by_path. rewrite (rev_path path 0%N).
  destruct path as [|x l]; [right; split; [reflexivity|contradiction]|].
  destruct (insert_first_spec idm member insert ast c (last (x :: l) 0%N) (rev (removelast (x :: l))))
    as [(ups1 & up & ups2 & p & n & Hr & Hp & Hi & Hm & He & Hu)|(He & Hu)].
  - left. exists (rev ups2), up, (rev ups1), p, n.
    split; [now apply rev_split|]. split; [exact Hp|]. split; [exact Hi|]. split; [exact Hm|].
    split; [exact He|]. intros u Hin. apply Hu. now apply in_rev.
  - right. split; [exact He|]. intros u Hin. apply Hu. now apply -> in_rev.
Qed.

Lemma vy_comment_lemma ast c path :
  let ast' := insert_comment_by_path vy_id vy_member vy_insert ast c path in
  let id := last path 0%N in
  let lacks := homeless vy_id (fun n => exists q l, vy_home id n q l) ast in
  (exists outer up inner p n q l l', removelast path = outer ++ up :: inner /\
     subtree p ast = Some n /\ vy_id n = Some up /\
     vy_home id n q l /\ before_first vy_id id c l l' /\
     replaced_at (p ++ q) (JArr l') ast ast' /\ subtree (p ++ q) ast = Some (JArr l) /\
     forall u, In u inner -> lacks u) \/
  (ast' = ast /\ forall u, In u (removelast path) -> lacks u).
Proof.
  cbv zeta. destruct (insert_by_path_spec vy_id vy_member vy_insert ast c path)
    as [(outer & up & inner & p & n & Hr & Hp & Hi & Hm & He & Hu)|(He & Hu)].
  - left. destruct (vy_insert_true n _ c Hm) as (q & l & l' & H1 & H2 & H3 & H4).
    exists outer, up, inner, p, n, q, l, l'. split; [exact Hr|]. split; [exact Hp|]. split; [exact Hi|].
    split; [exact H1|]. split; [exact H2|].
    assert (Hs : subtree (p ++ q) ast = Some (JArr l)) by (rewrite (subtree_app p q ast n Hp); exact H3).
    split.
    + rewrite He, H4, (set_subtree_app p q _ ast n Hp). eapply set_subtree_replaced; eauto.
    + split; [exact Hs|]. intros u Hin Hso q' m Hq' Hm' (q'' & l'' & Hh).
      eapply vy_member_false; [|exact Hh]. eapply Hu; eauto.
  - right. split; [exact He|]. intros u Hin Hso q' m Hq' Hm' (q'' & l'' & Hh).
    eapply vy_member_false; [|exact Hh]. eapply Hu; eauto.
Qed.

(** ** Solidity *)
Inductive key_place (id : N) (c : json) (n : json) (k : string) : path -> json -> json -> Prop :=
| kp_body i b j l l' :
    field_at n i k b -> is_sol "Block" b -> sol_id b <> Some id ->
    field_at b j "statements" (JArr l) ->
    before_first sol_id id c l l' -> key_place id c n k [i; j] (JArr l) (JArr l')
| kp_top i b j l :
    field_at n i k b -> is_sol "Block" b -> sol_id b = Some id ->
    field_at b j "statements" (JArr l) -> key_place id c n k [i; j] (JArr l) (JArr (c :: l))
| kp_wrap i b s :
    field_at n i k b -> is_sol s b -> s <> "Block" -> contains sol_id id b ->
    key_place id c n k [i] b (wrapping c b).

Lemma key_place_place id c n t k q x y :
  In (t, k) sol_bodies -> is_sol t n -> key_place id c n k q x y -> sol_place id c n q x y.
Proof.
  intros Hin Ht H. destruct H.
  - eapply place_body; eauto.
  - eapply place_top; eauto.
  - eapply place_wrap; eauto.
Qed.

Lemma key_place_subtree id c n k q x y : key_place id c n k q x y -> subtree q n = Some x.
Proof.
  intros H. destruct H as [i b j l l' Hi _ _ Hj _|i b j l Hi _ _ Hj|i b s Hi _ _ _].
  - change [i; j] with ([i] ++ [j]). rewrite (subtree_app [i] [j] n b (field_at_subtree _ _ _ _ Hi)).
    eapply field_at_subtree; eauto.
  - change [i; j] with ([i] ++ [j]). rewrite (subtree_app [i] [j] n b (field_at_subtree _ _ _ _ Hi)).
    eapply field_at_subtree; eauto.
  - eapply field_at_subtree; eauto.
Qed.

Lemma field_at_set_key n i k v x : plain_key k = true -> field_at n i k v ->
  exists n0, take_key n k = Some (v, n0) /\ set_key n0 k x = set_subtree [i] x n.
Proof.
  intros Hk H. destruct (field_at_set n i k v x H) as (o & -> & Ha & Hs).
  rewrite take_key_plain by exact Hk. rewrite Ha. eexists; split; [reflexivity|].
  rewrite set_key_plain by exact Hk. rewrite (assoc_obj_set_same k JNull v o Ha).
  rewrite obj_set_twice. exact Hs.
Qed.

Definition good_body (id : N) (n : json) (k : string) : Prop :=
  forall i b, field_at n i k b -> is_sol "Block" b ->
    (exists j l, field_at b j "statements" (JArr l)) /\ (k = "body" \/ sol_id b <> Some id).

Lemma sol_key_spec n k id c : plain_key k = true -> good_body id n k ->
  match sol_insert_key n k id c with
  | (n', true) => sol_found_key n k id = true /\
                  exists q x y, key_place id c n k q x y /\ n' = set_subtree q y n
  | (n', false) => n' = n /\ sol_found_key n k id = false /\ forall q x y, ~ key_place id c n k q x y
  end.
Proof.
  intros Hk Hg. unfold sol_insert_key, sol_found_key.
  destruct (oget n k) as [b|] eqn:Eo.
  2:{ assert (Ht : take_key n k = None).
      { rewrite take_key_plain by exact Hk. destruct n; try reflexivity. simpl in Eo. now rewrite Eo. }
      rewrite Ht. split; [reflexivity|]. split; [reflexivity|]. intros q x y H.
      assert (He : exists i b, field_at n i k b) by (destruct H; eauto). destruct He as (i & b & He).
      assert (oget n k = Some b) by (apply field_at_oget; eauto). congruence. }
  assert (Hf : exists i, field_at n i k b) by now apply field_at_oget.
  destruct Hf as (i & Hi).
  destruct (field_at_set_key n i k b b Hk Hi) as (n0 & Ht & Hself). rewrite Ht.
  rewrite (set_field_self n i k b Hi) in Hself.
  assert (Hset : forall x, set_key n0 k x = set_subtree [i] x n).
  { intros x. destruct (field_at_set_key n i k b x Hk Hi) as (n0' & Ht' & Hs').
    rewrite Ht in Ht'. injection Ht' as <-. exact Hs'. }
  assert (Hone : forall j b', field_at n j k b' -> j = i /\ b' = b).
  { intros j b' Hj. destruct (field_at_fun n i j k b b' Hi Hj). auto. }
  destruct (get_str b "nodeType") as [t|] eqn:Et.
  2:{ rewrite Hself. split; [reflexivity|]. split; [reflexivity|]. intros q x y H.
      assert (He : exists j b' s, field_at n j k b' /\ is_sol s b') by (destruct H; eauto).
      destruct He as (j & b' & s & Hj & Hs). apply Hone in Hj. destruct Hj as (-> & ->).
      apply is_sol_get in Hs. congruence. }
  assert (Hty : is_sol t b) by now apply is_sol_get.
  assert (Hty1 : forall s, is_sol s b -> s = t) by (intros s Hs; apply is_sol_get in Hs; congruence).
  destruct (String.eqb_spec t "Block") as [E|Hnb].
  - subst t. destruct (Hg i b Hi Hty) as ((j & l & Hj) & Hbody).
    destruct (match sol_id b with Some i0 => N.eqb id i0 | None => false end) eqn:Eid.
    + assert (Hid : sol_id b = Some id).
      { destruct (sol_id b); [|discriminate]. apply N.eqb_eq in Eid. congruence. }
      destruct Hbody as [->|Hne]; [|contradiction]. split; [reflexivity|].
      exists [i; j], (JArr l), (JArr (c :: l)). split; [eapply kp_top; eauto|].
      rewrite Hset. rewrite upd_array_plain by reflexivity.
      destruct (field_at_set b j "statements" (JArr l) (JArr (c :: l)) Hj) as (o & -> & Ha & Hs).
      rewrite Ha, Hs. change [i; j] with ([i] ++ [j]).
      apply set_subtree_app. eapply field_at_subtree; eauto.
    + assert (Hid : sol_id b <> Some id).
      { intros Hx. rewrite Hx, N.eqb_refl in Eid. discriminate. }
      pose proof (insert_under_spec sol_id "statements" id c b eq_refl) as Hs.
      pose proof (insert_under_found sol_id "statements" id c b) as Hfu.
      destruct (insert_under sol_id "statements" id c b) as [b' r]. simpl in Hfu. rewrite <- Hfu.
      destruct r.
      * split; [reflexivity|]. destruct Hs as (j' & l0 & l' & Hj' & Hb & ->).
        exists [i; j'], (JArr l0), (JArr l'). split; [eapply kp_body; eauto|].
        rewrite Hset. change [i; j'] with ([i] ++ [j']). apply set_subtree_app.
        eapply field_at_subtree; eauto.
      * destruct Hs as (-> & Hs). rewrite Hself. split; [reflexivity|]. split; [reflexivity|].
        intros q x y H. destruct H as [i1 b1 j1 l1 l1' A1 A2 A3 A4 A5|i1 b1 j1 l1 A1 A2 A3 A4|i1 b1 s1 A1 A2 A3 A4];
          apply Hone in A1; destruct A1 as (-> & ->).
        -- apply before_first_in in A5. destruct A5 as (z & Z1 & Z2).
           refine (Hs l1 _ z Z1 Z2). apply field_at_oget. eauto.
        -- contradiction.
        -- apply A3. now apply Hty1.
  - destruct (has_id sol_id id b) eqn:Eh.
    + split; [reflexivity|]. exists [i], b, (wrapping c b). split.
      * eapply kp_wrap; eauto. now apply has_id_true.
      * rewrite Hset. reflexivity.
    + rewrite Hself. split; [reflexivity|]. split; [reflexivity|].
      apply has_id_false in Eh.
      intros q x y H. destruct H as [i1 b1 j1 l1 l1' A1 A2 A3 A4 A5|i1 b1 j1 l1 A1 A2 A3 A4|i1 b1 s1 A1 A2 A3 A4];
          apply Hone in A1; destruct A1 as (-> & ->).
      * apply Hnb. symmetry. now apply Hty1.
      * apply Hnb. symmetry. now apply Hty1.
      * contradiction.
Qed.

Lemma sol_key_true n k id c : plain_key k = true -> good_body id n k -> sol_found_key n k id = true ->
  exists q x y n', key_place id c n k q x y /\ sol_insert_key n k id c = (n', true) /\ n' = set_subtree q y n.
Proof.
  intros Hk Hg Hf. pose proof (sol_key_spec n k id c Hk Hg) as H.
  destruct (sol_insert_key n k id c) as [n' b]. destruct b.
  - destruct H as (_ & q & x & y & H1 & H2). exists q, x, y, n'. auto.
  - destruct H as (_ & H & _). congruence.
Qed.

Lemma sol_key_false n k id c : plain_key k = true -> good_body id n k -> sol_found_key n k id = false ->
  sol_insert_key n k id c = (n, false) /\ forall q x y, ~ key_place id c n k q x y.
Proof.
  intros Hk Hg Hf. pose proof (sol_key_spec n k id c Hk Hg) as H.
  destruct (sol_insert_key n k id c) as [n' b]. destruct b.
  - destruct H as (H & _). congruence.
  - destruct H as (-> & _ & H). auto.
Qed.

Definition good_node (id : N) (n : json) : Prop :=
  forall k, In k ["body"; "trueBody"; "falseBody"; "block"] -> good_body id n k.

Lemma good_nodes id ast p n : blocks_have_lists ast -> ~ mutated_branch id ast ->
  subtree p ast = Some n -> good_node id n.
Proof.
  intros Hb Hm Hp k Hk i b Hi Hty. split.
  - apply (Hb (p ++ [i]) b); [|exact Hty]. rewrite (subtree_app p [i] ast n Hp).
    eapply field_at_subtree; eauto.
  - destruct (String.eqb_spec k "body") as [E|E]; [left; exact E|right].
    intros Hid. apply Hm. exists p, n, i, k, b. split; [exact Hp|].
    simpl in Hk. destruct Hk as [<-|Hk]; [congruence|]. auto.
Qed.

Ltac keys := simpl; tauto.

Lemma sol_holder_body t k : In (t, k) sol_bodies -> t <> "IfStatement" ->
  forall n, is_sol t n -> sol_holder n = HBody k.
Proof.
  intros Hin Hne n Ht. apply is_sol_get in Ht. unfold sol_holder. rewrite Ht.
  simpl in Hin. repeat (destruct Hin as [E|Hin]; [injection E as <- <-; try reflexivity; congruence|]).
  contradiction.
Qed.

Lemma sol_insert_true n id c : good_node id n -> sol_member n id = true ->
  exists q x y, sol_place id c n q x y /\ subtree q n = Some x /\ sol_insert n id c = set_subtree q y n.
Proof.
  intros Hg. unfold sol_member, sol_insert.
  destruct (get_str n "nodeType") as [t|] eqn:Et.
  2:{ unfold sol_holder. rewrite Et. discriminate. }
  assert (Hty : is_sol t n) by now apply is_sol_get.
  assert (GA : forall k, In (t, k) sol_lists -> plain_key k = true -> found_under sol_id k id n = true ->
     exists q x y, sol_place id c n q x y /\ subtree q n = Some x /\
       fst (insert_under sol_id k id c n) = set_subtree q y n).
  { intros k Hin Hk Hf. destruct (insert_under_true sol_id k id c n Hk Hf) as (i & l & l' & Hi & Hb & He).
    exists [i], (JArr l), (JArr l'). split; [|split; [eapply field_at_subtree; eauto|exact He]].
    eapply place_list; eauto. }
  assert (GB : forall k, In (t, k) sol_bodies -> plain_key k = true -> good_body id n k ->
     sol_found_key n k id = true ->
     exists q x y, sol_place id c n q x y /\ subtree q n = Some x /\
       sol_insert_key n k id c = (set_subtree q y n, true)).
  { intros k Hin Hk Hgb Hf. destruct (sol_key_true n k id c Hk Hgb Hf) as (q & x & y & n' & H1 & H2 & ->).
    exists q, x, y. split; [eapply key_place_place; eauto|]. split; [eapply key_place_subtree; eauto|exact H2]. }
  assert (GB1 : forall k, In (t, k) sol_bodies -> plain_key k = true -> good_body id n k ->
     sol_found_key n k id = true ->
     exists q x y, sol_place id c n q x y /\ subtree q n = Some x /\
       fst (sol_insert_key n k id c) = set_subtree q y n).
  { intros k Hin Hk Hgb Hf. destruct (GB k Hin Hk Hgb Hf) as (q & x & y & H1 & H2 & H3).
    exists q, x, y. rewrite H3. auto. }
  unfold sol_holder. rewrite Et.
  destruct (smem t ["Block"; "UncheckedBlock"]) eqn:E1.
  { apply smem_In' in E1. apply GA; [|reflexivity].
    simpl in E1. destruct E1 as [<-|[<-|[]]]; keys. }
  destruct (String.eqb_spec t "ContractDefinition") as [E|_].
  { subst t. apply GA; [keys|reflexivity]. }
  clear E1. destruct (smem t _) eqn:E2.
  { apply smem_In' in E2. apply GB1; [|reflexivity|apply Hg; keys].
    simpl in E2. destruct E2 as [<-|[<-|[<-|[<-|[<-|[]]]]]]; keys. }
  destruct (String.eqb_spec t "IfStatement") as [E|_].
  { subst t. intros H. destruct (sol_found_key n "trueBody" id) eqn:Ef.
    - destruct (GB "trueBody") as (q & x & y & H1 & H2 & H3); [keys|reflexivity|apply Hg; keys|exact Ef|].
      exists q, x, y. rewrite H3. auto.
    - simpl in H. destruct (sol_key_false n "trueBody" id c) as (-> & _); [reflexivity|apply Hg; keys|exact Ef|].
      apply GB1; [keys|reflexivity|apply Hg; keys|exact H]. }
  destruct (String.eqb_spec t "TryCatchClause") as [E|_]; [|discriminate].
  subst t. apply GB1; [keys|reflexivity|apply Hg; keys].
Qed.

Lemma sol_member_false n id c : good_node id n -> sol_member n id = false ->
  forall q x y, ~ sol_place id c n q x y.
Proof.
  intros Hg Hm q x y Hp.
  assert (Hlist : forall t k i l l', In (t, k) sol_lists -> is_sol t n -> field_at n i k (JArr l) ->
     before_first sol_id id c l l' -> False).
  { intros t k i l l' Hin Ht Hi Hb. apply is_sol_get in Ht.
    apply before_first_in in Hb. destruct Hb as (z & Hz & Hc).
    assert (F : plain_key k = true -> found_under sol_id k id n = true).
    { intros Hk. apply found_under_true; [exact Hk|]. exists i, l, z. auto. }
    unfold sol_member, sol_holder in Hm. rewrite Ht in Hm.
    simpl in Hin. destruct Hin as [E|[E|[E|[]]]]; injection E as <- <-; simpl in Hm;
      rewrite (F eq_refl) in Hm; discriminate. }
  assert (Hbody : forall t k, In (t, k) sol_bodies -> is_sol t n -> key_place id c n k q x y -> False).
  { intros t k Hin Ht Hk.
    assert (Hkk : In k ["body"; "trueBody"; "falseBody"; "block"]).
    { simpl in Hin. repeat (destruct Hin as [E|Hin]; [injection E as <- <-; keys|]). contradiction. }
    assert (Hpk : plain_key k = true).
    { clear -Hkk. simpl in Hkk. destruct Hkk as [<-|[<-|[<-|[<-|[]]]]]; reflexivity. }
    assert (F : sol_found_key n k id = true).
    { destruct (sol_found_key n k id) eqn:Ef; [reflexivity|].
      destruct (sol_key_false n k id c Hpk (Hg k Hkk) Ef) as (_ & H). exfalso. exact (H q x y Hk). }
    apply is_sol_get in Ht. unfold sol_member, sol_holder in Hm. rewrite Ht in Hm.
    simpl in Hin. repeat (destruct Hin as [E|Hin];
      [injection E as <- <-; simpl in Hm; rewrite F in Hm; try discriminate; rewrite orb_true_r in Hm; discriminate|]).
    contradiction. }
  destruct Hp.
  - eapply Hlist; eauto.
  - eapply Hbody; eauto. eapply kp_body; eauto.
  - eapply Hbody; eauto. eapply kp_top; eauto.
  - eapply Hbody; eauto. eapply kp_wrap; eauto.
Qed.

Lemma sol_comment_lemma ast c path :
  let ast' := insert_comment_by_path sol_id sol_member sol_insert ast c path in
  let id := last path 0%N in
  let lacks := homeless sol_id (fun n => exists q x y, sol_place id c n q x y) ast in
  blocks_have_lists ast -> ~ mutated_branch id ast ->
  (exists outer up inner p n q x y, removelast path = outer ++ up :: inner /\
     subtree p ast = Some n /\ sol_id n = Some up /\
     sol_place id c n q x y /\ subtree (p ++ q) ast = Some x /\
     replaced_at (p ++ q) y ast ast' /\
     forall u, In u inner -> lacks u) \/
  (ast' = ast /\ forall u, In u (removelast path) -> lacks u).
Proof.
  cbv zeta. intros Hb Hmb. destruct (insert_by_path_spec sol_id sol_member sol_insert ast c path)
    as [(outer & up & inner & p & n & Hr & Hp & Hi & Hm & He & Hu)|(He & Hu)].
  - left. destruct (sol_insert_true n _ c (good_nodes _ _ _ _ Hb Hmb Hp) Hm) as (q & x & y & H1 & H2 & H3).
    exists outer, up, inner, p, n, q, x, y. split; [exact Hr|]. split; [exact Hp|]. split; [exact Hi|].
    split; [exact H1|].
    assert (Hs : subtree (p ++ q) ast = Some x) by (rewrite (subtree_app p q ast n Hp); exact H2).
    split; [exact Hs|]. split.
    + rewrite He, H3, (set_subtree_app p q _ ast n Hp). eapply set_subtree_replaced; eauto.
    + intros u Hin Hso q' m Hq' Hm' (q'' & x'' & y'' & Hh).
      eapply sol_member_false; [eapply good_nodes; eauto| |exact Hh]. eapply Hu; eauto.
  - right. split; [exact He|]. intros u Hin Hso q' m Hq' Hm' (q'' & x'' & y'' & Hh).
    eapply sol_member_false; [eapply good_nodes; eauto| |exact Hh]. eapply Hu; eauto.
Qed.
