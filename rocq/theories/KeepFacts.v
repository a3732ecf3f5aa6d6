(** Replacing a node by one that looks the same to its parent. *)
From Coq Require Import String Ascii List NArith ZArith Arith Bool Lia.
From Verif Require Import Base Json JsonFacts Rng MutationType Traverse OpCommon Comments SpecTree SpecOps SpecTotal SpecPlain
  TraverseFacts PaceFacts PlainFacts.
Import ListNotations.
Open Scope list_scope.
Open Scope string_scope.

Lemma set_child_oget i c c' n k : nth_error (children n) i = Some c ->
  oget (set_child i c' n) k = oget n k \/ (oget n k = Some c /\ oget (set_child i c' n) k = Some c').
Proof.
  destruct n as [| | | | l | o]; try (left; reflexivity). cbn [children set_child oget].
  revert i. induction o as [| [k0 y] o IH]; intros [| i] H; cbn in H; try discriminate H.
  - injection H as ->. cbn [set_value assoc]. destruct (String.eqb k k0); [ right; split; reflexivity | left; reflexivity ].
  - cbn [set_value assoc]. destruct (String.eqb k k0); [ left; reflexivity | apply IH; exact H ].
Qed.

Lemma in_replace_at {A} i (x : A) l v : In v (replace_at i x l) -> v = x \/ In v l.
Proof.
  revert i. induction l as [| y l IH]; intros [| i] H; cbn [replace_at] in H; try (now destruct H).
  - destruct H as [<- | H]; [ now left | right; now right ].
  - destruct H as [<- | H]; [ right; now left |]. destruct (IH i H); [ now left | right; now right ].
Qed.

Section Lift.
Variable P : json -> Prop.
Variable alike : json -> json -> Prop.
Hypothesis Hroot : forall n i c c', P n -> nth_error (children n) i = Some c -> alike c c' -> P (set_child i c' n).
Hypothesis Hup : forall n i c c', P n -> nth_error (children n) i = Some c -> alike c c' -> alike n (set_child i c' n).

Lemma lift p : forall x ast n, everywhere P ast -> subtree p ast = Some n -> alike n x -> everywhere P x ->
  everywhere P (set_subtree p x ast) /\ alike ast (set_subtree p x ast).
Proof.
  induction p as [| i p IH]; intros x ast n Ha Hp Hx HP.
  - injection Hp as <-. split; [ exact HP | exact Hx ].
  - cbn [subtree] in Hp. cbn [set_subtree]. destruct (nth_error (children ast) i) as [c |] eqn:E; [| discriminate Hp ].
    assert (Hc : everywhere P c) by (eapply ev_child; [ exact Ha | eapply nth_error_In; exact E ]).
    destruct (IH x c n Hc Hp Hx HP) as [H1 H2]. pose proof (ev_root _ _ Ha) as Hr. split.
    + apply ev_node; [ eapply Hroot; eassumption |]. intros v Hv. rewrite children_set_child in Hv.
      apply in_replace_at in Hv. destruct Hv as [-> | Hv]; [ exact H1 | exact (ev_child _ _ _ Ha Hv) ].
    + eapply Hup; eassumption.
Qed.
End Lift.

(** Only the field [k] differs. *)
Definition but (k : string) (n n' : json) : Prop := forall k', k' <> k -> oget n' k' = oget n k'.

Lemma but_refl k n : but k n n.
Proof. intros k' _. reflexivity. Qed.

Lemma but_trans k a b c : but k a b -> but k b c -> but k a c.
Proof. intros H1 H2 k' Hk. rewrite H2, H1 by exact Hk. reflexivity. Qed.

Lemma but_take n k w n0 : plain_key k = true -> take_key n k = Some (w, n0) -> but k n n0.
Proof. intros Hk H k' Hn. eapply take_key_other; eassumption. Qed.

Lemma assoc_obj_insert_other {A} k k' (x : A) o : k' <> k -> assoc k' (obj_insert k x o) = assoc k' o.
Proof.
  intro Hn. induction o as [| [k0 y] o IH]; cbn [obj_insert assoc].
  - destruct (String.eqb_spec k' k); [ contradiction | reflexivity ].
  - destruct (String.eqb_spec k k0) as [<- | Hk].
    + cbn [assoc]. destruct (String.eqb_spec k' k); [ contradiction | reflexivity ].
    + destruct (str_ltb k k0); cbn [assoc].
      * destruct (String.eqb_spec k' k); [ contradiction | reflexivity ].
      * destruct (String.eqb k' k0); [ reflexivity | exact IH ].
Qed.

Lemma but_set n k v : plain_key k = true -> but k n (set_key n k v).
Proof.
  intros Hk k' Hn. rewrite (set_key_plain _ _ _ Hk). destruct n; try reflexivity. cbn [oget].
  destruct (assoc k o); cbn [oget]; [ apply assoc_obj_set_other | apply assoc_obj_insert_other ]; exact Hn.
Qed.

Lemma but_take_set n k w n0 v : plain_key k = true -> take_key n k = Some (w, n0) -> but k n (set_key n0 k v).
Proof. intros Hk H. eapply but_trans; [ eapply but_take; eassumption | apply but_set; exact Hk ]. Qed.

Lemma children_take_set n k w n0 v x : plain_key k = true -> take_key n k = Some (w, n0) ->
  In x (children (set_key n0 k v)) -> x = v \/ x = JNull \/ In x (children n).
Proof.
  intros Hk H Hx. apply children_set_key in Hx; [| exact Hk ]. destruct Hx as [-> | Hx]; [ now left | right ].
  eapply children_take_key; eassumption.
Qed.

Lemma take_object n k w n0 : plain_key k = true -> take_key n k = Some (w, n0) -> is_object n = true /\ is_object n0 = true.
Proof.
  intros Hk H. rewrite (take_key_plain _ _ Hk) in H. destruct n; try discriminate.
  destruct (assoc k o); [| discriminate ]. injection H as _ <-. split; reflexivity.
Qed.

Lemma set_object n k v : plain_key k = true -> is_object (set_key n k v) = is_object n.
Proof. intro Hk. rewrite (set_key_plain _ _ _ Hk). destruct n; try reflexivity. destruct (assoc k o); reflexivity. Qed.

Lemma oget_object n k v : oget n k = Some v -> is_object n = true.
Proof. destruct n; try discriminate. reflexivity. Qed.

Lemma set_get n k v : plain_key k = true -> is_object n = true -> oget (set_key n k v) k = Some v.
Proof. intros Hk Ho. apply oget_set_key_same; [ exact Hk | destruct n; try discriminate Ho; exact I || reflexivity ]. Qed.

Lemma in_vec_put {A} i (x : A) l v : In v (vec_put i x l) -> v = x \/ In v l.
Proof.
  unfold vec_put, insert_at. intro H. apply in_app_or in H.
  assert (G : In v (remove_at i l) -> In v l).
  { unfold remove_at. intro G. apply in_app_or in G. destruct G as [G | G].
    - rewrite <- (firstn_skipn i l). apply in_or_app. now left.
    - rewrite <- (firstn_skipn (S i) l). apply in_or_app. now right. }
  destruct H as [H | [<- | H]]; [| now left |]; right; apply G.
  - rewrite <- (firstn_skipn i (remove_at i l)). apply in_or_app. now left.
  - rewrite <- (firstn_skipn i (remove_at i l)). apply in_or_app. now right.
Qed.
