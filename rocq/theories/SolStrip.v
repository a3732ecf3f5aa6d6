(** Trees with their comments taken out. *)
From Coq Require Import String Ascii List NArith ZArith Bool Lia.
From Verif Require Import Base Json JsonFacts SpecTree SpecMutation SpecOps SpecLiteral SpecVyText SpecSolText SpecSolEdit LocalFacts TraverseFacts3 KeepFacts SolPlace.
Import ListNotations.
Open Scope string_scope.
Open Scope list_scope.

Notation strip := without_comments.

Definition is_string (j : json) : bool := match j with JStr _ => true | _ => false end.

Definition strips (l : list json) : list json := flat_map (fun x => if is_comment x then [] else [strip x]) l.
Definition strip_fields (o : list (string * json)) : list (string * json) := map (fun kv => (fst kv, strip (snd kv))) o.

Lemma strip_arr : forall l, strip (JArr l) = JArr (strips l).
Proof. intros l. cbn [without_comments]. f_equal. induction l as [|x l IH]; [reflexivity|]. unfold strips in *. cbn [flat_map]. destruct (is_comment x); [exact IH|cbn [app]; now f_equal]. Qed.
Lemma strip_obj : forall o, strip (JObj o) = JObj (strip_fields o).
Proof. intros o. cbn [without_comments]. f_equal. induction o as [|[k v] o IH]; [reflexivity|]. unfold strip_fields in *. cbn [map fst snd]. now f_equal. Qed.
Lemma strips_app : forall a b, strips (a ++ b) = strips a ++ strips b.
Proof. intros. apply flat_map_app. Qed.
Lemma strips_cons : forall x l, is_comment x = false -> strips (x :: l) = strip x :: strips l.
Proof. intros x l C. unfold strips. cbn [flat_map]. rewrite C. reflexivity. Qed.
Lemma strips_comment : forall x l, is_comment x = true -> strips (x :: l) = strips l.
Proof. intros x l C. unfold strips. cbn [flat_map]. rewrite C. reflexivity. Qed.

Lemma strip_get : forall n k, oget (strip n) k = option_map strip (oget n k).
Proof.
  intros [| | | |l|o] k; try reflexivity. rewrite strip_obj. cbn [oget]. induction o as [|[k1 v1] o IH]; [reflexivity|]. cbn [strip_fields map fst snd assoc].
  destruct (k =?s k1); [reflexivity|exact IH].
Qed.

Lemma strip_object : forall n, is_object (strip n) = is_object n.
Proof. intros [| | | |l|o]; reflexivity. Qed.

Lemma strip_scalar_field : forall n k v, strip v = v -> fld n k v -> fld (strip n) k v.
Proof. intros n k v E F. unfold fld in *. rewrite strip_get, F. cbn [option_map]. now rewrite E. Qed.

Lemma strip_type : forall n ty, is_n (strip n) ty <-> is_n n ty.
Proof.
  intros n ty. unfold is_n, fld. rewrite strip_get. destruct (oget n "nodeType") as [v|]; cbn [option_map]; [|tauto].
  destruct v; cbn; split; intros H; congruence.
Qed.

Lemma strip_comment : forall n, is_comment (strip n) = is_comment n.
Proof. intros n. unfold is_comment. rewrite strip_get. destruct (oget n "nodeType") as [[| | | | |]|]; reflexivity. Qed.

(** ** No comments to take out *)

Lemma uncommented_sub : forall p n m, uncommented n -> subtree p n = Some m -> uncommented m.
Proof. intros p n m U S q x Q. apply (U (p ++ q)). rewrite TraverseFacts3.subtree_app, S. exact Q. Qed.

Lemma uncommented_elem : forall l x, uncommented (JArr l) -> In x l -> uncommented x.
Proof. intros l x U I. apply In_nth_error in I. destruct I as (i & E). apply (uncommented_sub [i] _ _ U). cbn [subtree children]. now rewrite E. Qed.
Lemma uncommented_value : forall o k v, uncommented (JObj o) -> In (k, v) o -> uncommented v.
Proof. intros o k v U I. apply In_nth_error in I. destruct I as (i & E). apply (uncommented_sub [i] _ _ U). cbn [subtree children]. rewrite nth_error_map, E. reflexivity. Qed.
Lemma uncommented_root : forall n, uncommented n -> is_comment n = false.
Proof. intros n U. exact (U [] n eq_refl). Qed.

Lemma assoc_In : forall A k (o : list (string * A)) v, assoc k o = Some v -> In (k, v) o.
Proof.
  intros A k o v. induction o as [|[k1 v1] o IH]; intros F; cbn [assoc] in F; [discriminate F|]. destruct (k =?s k1) eqn:E; [|right; auto].
  apply String.eqb_eq in E. injection F as ->. left. now subst.
Qed.

Lemma uncommented_field : forall n k v, uncommented n -> fld n k v -> uncommented v.
Proof. intros [| | | |l|o] k v U F; try discriminate F. exact (uncommented_value o k v U (assoc_In _ _ _ _ F)). Qed.

Lemma strip_id : forall n, uncommented n -> strip n = n.
Proof.
  intros n. induction n as [| | | |l IH|o IH] using json_ind'; intros U; try reflexivity.
  - rewrite strip_arr. f_equal. assert (F : Forall uncommented l) by (apply Forall_forall; intros x I; exact (uncommented_elem l x U I)). clear U.
    induction l as [|x l IHl]; [reflexivity|]. inversion IH; inversion F; subst. rewrite strips_cons by now apply uncommented_root. f_equal; auto.
  - rewrite strip_obj. f_equal. assert (F : Forall (fun kv => uncommented (snd kv)) o) by (apply Forall_forall; intros [k v] I; exact (uncommented_value o k v U I)). clear U.
    induction o as [|[k v] o IHo]; [reflexivity|]. inversion IH; inversion F; subst. cbn [strip_fields map fst snd] in *. f_equal; [f_equal; auto|auto].
Qed.

Lemma strips_id : forall l, Forall uncommented l -> strips l = l.
Proof. intros l F. induction F as [|x l U F IH]; [reflexivity|]. rewrite strips_cons by now apply uncommented_root. now rewrite strip_id, IH. Qed.

Lemma list_uncommented : forall n k l, uncommented n -> fld n k (JArr l) -> Forall uncommented l.
Proof. intros n k l U F. apply Forall_forall. intros x I. exact (uncommented_elem l x (uncommented_field n k _ U F) I). Qed.

(** ** One field changed *)

Lemma assoc_strip_fields : forall o k, assoc k (strip_fields o) = option_map strip (assoc k o).
Proof. intros o k. pose proof (strip_get (JObj o) k) as H. rewrite strip_obj in H. exact H. Qed.
Lemma keys_strip : forall o, map fst (strip_fields o) = map fst o.
Proof. intros o. induction o as [|[k v] o IH]; [reflexivity|]. cbn. now f_equal. Qed.

Lemma strip_becomes : forall k v n n', uncommented n -> field_becomes k v n n' -> field_becomes k (strip v) n (strip n').
Proof.
  intros k v n n' U (o & o' & -> & -> & K & I & A & E). exists o, (strip_fields o'). rewrite strip_obj. split; [reflexivity|]. split; [reflexivity|].
  split; [now rewrite keys_strip|]. split; [exact I|]. split; [now rewrite assoc_strip_fields, A|].
  intros k' N. rewrite assoc_strip_fields, E by exact N. destruct (assoc k' o) as [w|] eqn:W; [|reflexivity]. cbn [option_map]. f_equal. apply strip_id.
  exact (uncommented_value o k' w U (assoc_In _ _ _ _ W)).
Qed.

Lemma strip_two : forall ka a kb b n n', uncommented n -> uncommented a -> uncommented b -> two_fields_become ka a kb b n n' -> two_fields_become ka a kb b n (strip n').
Proof.
  intros ka a kb b n n' U Ua Ub (o & o' & -> & -> & K & A & B & E). exists o, (strip_fields o'). rewrite strip_obj. split; [reflexivity|]. split; [reflexivity|].
  split; [now rewrite keys_strip|]. rewrite !assoc_strip_fields, A, B. cbn [option_map]. rewrite !strip_id by assumption. split; [reflexivity|]. split; [reflexivity|].
  intros k' N N'. rewrite assoc_strip_fields, E by assumption. destruct (assoc k' o) as [w|] eqn:W; [|reflexivity]. cbn [option_map]. f_equal. apply strip_id.
  exact (uncommented_value o k' w U (assoc_In _ _ _ _ W)).
Qed.

(** ** One node replaced *)

Lemma hit_kind : forall x x' v v', is_object x' = true -> hit x x' v v' -> is_string v' = false.
Proof. intros x x' v v' O H. destruct H; try reflexivity. destruct x'; try discriminate O; reflexivity. Qed.

Lemma is_comment_string : forall n, is_comment n = true -> exists v, oget n "nodeType" = Some v /\ is_string v = true.
Proof. intros n C. unfold is_comment in C. destruct (oget n "nodeType") as [[| | |s| |]|]; try discriminate C. eauto. Qed.

Lemma hit_comment : forall x x' v v', is_object x' = true -> is_comment x' = false -> hit x x' v v' -> uncommented v -> is_comment v' = false.
Proof.
  intros x x' v v' O C H U. destruct H as [|o1 k w w' o2 H|a w w' b H]; [exact C| |reflexivity].
  pose proof (uncommented_root _ U) as R. unfold is_comment, oget in *. destruct (assoc_mid o1 o2 k w w' "nodeType") as [E|(_ & E & E')]; [now rewrite <- E|].
  rewrite E'. pose proof (hit_kind _ _ _ _ O H) as Z. destruct w'; try reflexivity; discriminate Z.
Qed.

Lemma hit_strip : forall x x' v v', is_object x' = true -> is_comment x' = false -> hit x x' v v' -> uncommented v -> hit x (strip x') v (strip v').
Proof.
  intros x x' v v' O C H. induction H as [|o1 k w w' o2 H IH|a w w' b H IH]; intros U; [constructor| |].
  - assert (Uf : Forall (fun kv => uncommented (snd kv)) (o1 ++ (k, w) :: o2)) by (apply Forall_forall; intros [k0 v0] I; exact (uncommented_value _ k0 v0 U I)).
    apply Forall_app in Uf. destruct Uf as (U1 & U2). inversion U2 as [|? ? Uw U3]; subst. cbn [snd] in Uw.
    rewrite strip_obj. unfold strip_fields. rewrite map_app. cbn [map fst snd].
    assert (E : forall o, Forall (fun kv => uncommented (snd kv)) o -> map (fun kv : string * json => (fst kv, strip (snd kv))) o = o).
    { intros o F. induction F as [|[k0 v0] o Q F IHo]; [reflexivity|]. cbn [map fst snd] in *. now rewrite strip_id, IHo. }
    rewrite !E by assumption. constructor. now apply IH.
  - assert (Uf : Forall uncommented (a ++ w :: b)) by (apply Forall_forall; intros y I; exact (uncommented_elem _ y U I)).
    apply Forall_app in Uf. destruct Uf as (U1 & U2). inversion U2 as [|? ? Uw U3]; subst.
    rewrite strip_arr, strips_app, strips_cons by exact (hit_comment _ _ _ _ O C H Uw). rewrite !strips_id by assumption. constructor. now apply IH.
Qed.

(** ** Any tree with one node replaced *)

Lemma set_kind : forall p x' v x, subtree p v = Some x -> is_string x = false -> is_string x' = false -> is_string v = false /\ is_string (set_subtree p x' v) = false.
Proof.
  intros [|i p] x' v x S X X'; cbn [subtree set_subtree] in *; [injection S as ->; auto|].
  destruct (nth_error (children v) i) as [c|] eqn:E; [|discriminate S]. destruct v; try (destruct i; discriminate E); split; reflexivity.
Qed.

Lemma set_comment : forall p x' v x, subtree p v = Some x -> is_string x = false -> is_string x' = false -> is_comment x' = is_comment x -> is_comment (set_subtree p x' v) = is_comment v.
Proof.
  intros [|i p] x' v x S X X' C; cbn [subtree set_subtree] in *; [injection S as ->; exact C|].
  destruct (nth_error (children v) i) as [c|] eqn:E; [|discriminate S]. destruct (set_kind p x' c x S X X') as (Y & Y').
  destruct v as [| | | |l|o]; try (destruct i; discriminate E); [reflexivity|]. cbn [children] in E. rewrite nth_error_map in E.
  destruct (nth_error o i) as [[k w]|] eqn:F; [|discriminate E]. cbn in E. injection E as ->. destruct (nth_cut _ _ _ _ F) as (o1 & o2 & -> & <-).
  cbn [set_child]. rewrite set_value_cut. unfold is_comment, oget. destruct (assoc_mid o1 o2 k c (set_subtree p x' c) "nodeType") as [G|(_ & G & G')]; [now rewrite G|].
  rewrite G, G'. destruct (set_subtree p x' c), c; try reflexivity; discriminate.
Qed.

Lemma strip_set_same : forall p x' v x, subtree p v = Some x -> is_string x = false -> is_string x' = false -> is_comment x' = is_comment x -> strip x' = strip x ->
  strip (set_subtree p x' v) = strip v.
Proof.
  induction p as [|i p IH]; intros x' v x S X X' C Q; cbn [subtree set_subtree] in *; [injection S as ->; exact Q|].
  destruct (nth_error (children v) i) as [c|] eqn:E; [|discriminate S]. pose proof (set_comment p x' c x S X X' C) as Cc. specialize (IH x' c x S X X' C Q).
  destruct v as [| | | |l|o]; try (destruct i; discriminate E); cbn [children] in E.
  - destruct (nth_cut _ _ _ _ E) as (l1 & l2 & -> & <-). cbn [set_child]. rewrite replace_cut, !strip_arr, !strips_app. f_equal. f_equal.
    destruct (is_comment c) eqn:Ic; [now rewrite !strips_comment by congruence|]. rewrite !strips_cons by congruence. now f_equal.
  - rewrite nth_error_map in E. destruct (nth_error o i) as [[k w]|] eqn:F; [|discriminate E]. cbn in E. injection E as ->. destruct (nth_cut _ _ _ _ F) as (o1 & o2 & -> & <-).
    cbn [set_child]. rewrite set_value_cut, !strip_obj. unfold strip_fields. rewrite !map_app. cbn [map fst snd]. now rewrite IH.
Qed.

(** The replaced node lies in a comment, or it is replaced without the comments
    as well. *)
Lemma strip_set : forall p x' v x, subtree p v = Some x -> is_string x = false -> is_string x' = false -> is_comment x' = false -> is_comment x = false ->
  strip (set_subtree p x' v) = strip v \/ hit (strip x) (strip x') (strip v) (strip (set_subtree p x' v)).
Proof.
  induction p as [|i p IH]; intros x' v x S X X' C' C; cbn [subtree set_subtree] in *; [injection S as ->; right; constructor|].
  destruct (nth_error (children v) i) as [c|] eqn:E; [|discriminate S]. pose proof (set_comment p x' c x S X X' (eq_trans C' (eq_sym C))) as Cc. specialize (IH x' c x S X X' C' C).
  destruct v as [| | | |l|o]; try (destruct i; discriminate E); cbn [children] in E.
  - destruct (nth_cut _ _ _ _ E) as (l1 & l2 & -> & <-). cbn [set_child]. rewrite replace_cut, !strip_arr, !strips_app.
    destruct (is_comment c) eqn:Ic; [left; now rewrite !strips_comment by congruence|]. rewrite !strips_cons by congruence.
    destruct IH as [IH|IH]; [left; now rewrite IH|right; now constructor].
  - rewrite nth_error_map in E. destruct (nth_error o i) as [[k w]|] eqn:F; [|discriminate E]. cbn in E. injection E as ->. destruct (nth_cut _ _ _ _ F) as (o1 & o2 & -> & <-).
    cbn [set_child]. rewrite set_value_cut, !strip_obj. unfold strip_fields. rewrite !map_app. cbn [map fst snd].
    destruct IH as [IH|IH]; [left; now rewrite IH|right; now constructor].
Qed.
