(** Plain nodes: their parts, and the nodes the operators build. *)
From Coq Require Import String Ascii List NArith ZArith Arith Bool Lia.
From Verif Require Import Base Json JsonFacts OpCommon SpecTree SpecOps SpecTotal SpecPlain TraverseFacts3 PaceFacts.
Import ListNotations.
Open Scope string_scope.
Open Scope list_scope.

Lemma ev_root (P : json -> Prop) n : everywhere P n -> P n.
Proof. intro H. apply (H []). reflexivity. Qed.

Lemma ev_part (P : json -> Prop) n v : everywhere P n -> within v n -> everywhere P v.
Proof.
  intros H [q Hq] p x Hx. apply (H (q ++ p)). rewrite subtree_app, Hq. exact Hx.
Qed.

Lemma ev_node (P : json -> Prop) n : P n -> (forall v, In v (children n) -> everywhere P v) -> everywhere P n.
Proof.
  intros H Hc [| i q] x Hx.
  - injection Hx as <-. exact H.
  - cbn [subtree] in Hx. destruct (nth_error (children n) i) as [y |] eqn:E; [| discriminate ].
    apply nth_error_In in E. exact (Hc y E q x Hx).
Qed.

Lemma ev_child (P : json -> Prop) n v : everywhere P n -> In v (children n) -> everywhere P v.
Proof. intros H Hv. eapply ev_part; [ exact H | apply child_within; exact Hv ]. Qed.

Lemma ev_field (P : json -> Prop) n k v : everywhere P n -> oget n k = Some v -> everywhere P v.
Proof. intros H Hv. eapply ev_part; [ exact H | apply part_oget in Hv; apply Hv ]. Qed.

Lemma ev_elem (P : json -> Prop) n k l v : everywhere P n -> oget n k = Some (JArr l) -> In v l -> everywhere P v.
Proof. intros H Hl Hv. eapply ev_child; [ eapply ev_field; eassumption | exact Hv ]. Qed.

(** ** Children of built nodes *)

Lemma in_obj_insert {A} k (x : A) o v : In v (map snd (obj_insert k x o)) -> v = x \/ In v (map snd o).
Proof.
  induction o as [| [k0 y] o IH]; cbn [obj_insert map snd]; intro H.
  - destruct H as [<- | []]. now left.
  - destruct (String.eqb k k0); [ cbn [map snd] in H; destruct H; [ now left | right; now right ] |].
    destruct (str_ltb k k0); cbn [map snd] in H.
    + destruct H as [<- | H]; [ now left | right; exact H ].
    + destruct H as [<- | H]; [ right; now left |]. apply IH in H. destruct H; [ now left | right; now right ].
Qed.

Lemma children_mkobj l v : In v (children (mkobj l)) -> In v (map snd l).
Proof.
  unfold mkobj. cbn [children].
  assert (G : forall l o, In v (map snd (fold_left (fun o kv => obj_insert (fst kv) (snd kv) o) l o)) ->
              In v (map snd l) \/ In v (map snd o)).
  { induction l0 as [| kv l0 IH]; intros o H; [ now right |]. cbn [fold_left] in H.
    apply IH in H. destruct H as [H | H]; [ left; now right |].
    apply in_obj_insert in H. destruct H as [-> | H]; [ left; now left | now right ]. }
  intro H. apply G in H. destruct H as [H | []]. exact H.
Qed.

Lemma in_obj_set {A} k (x : A) o v : In v (map snd (obj_set k x o)) -> v = x \/ In v (map snd o).
Proof.
  induction o as [| [k0 y] o IH]; cbn [obj_set map snd]; intro H; [ destruct H |].
  destruct (String.eqb k k0); cbn [map snd] in H; destruct H as [<- | H].
  - now left.
  - right. now right.
  - right. now left.
  - apply IH in H. destruct H; [ now left | right; now right ].
Qed.

Lemma children_set_key n k x v : plain_key k = true ->
  In v (children (set_key n k x)) -> v = x \/ In v (children n).
Proof.
  intros Hk H. rewrite (set_key_plain _ _ _ Hk) in H. destruct n; try (right; exact H).
  destruct (assoc k o); cbn [children] in *; [ eapply in_obj_set | eapply in_obj_insert ]; exact H.
Qed.

Lemma children_take_key n k w n0 v : plain_key k = true -> take_key n k = Some (w, n0) ->
  In v (children n0) -> v = JNull \/ In v (children n).
Proof.
  intros Hk H. rewrite (take_key_plain _ _ Hk) in H. destruct n; try discriminate.
  destruct (assoc k o); [| discriminate ]. injection H as <- <-. cbn [children]. apply in_obj_set.
Qed.

Lemma take_key_get n k w n0 : plain_key k = true -> take_key n k = Some (w, n0) -> oget n k = Some w.
Proof.
  intros Hk H. rewrite (take_key_plain _ _ Hk) in H. destruct n; try discriminate.
  cbn [oget]. destruct (assoc k o); [| discriminate ]. injection H as <- _. reflexivity.
Qed.

Lemma take_key_other n k w n0 k' : plain_key k = true -> take_key n k = Some (w, n0) -> k' <> k ->
  oget n0 k' = oget n k'.
Proof.
  intros Hk H Hn. rewrite (take_key_plain _ _ Hk) in H. destruct n; try discriminate.
  destruct (assoc k o); [| discriminate ]. injection H as _ <-. cbn [oget]. apply assoc_obj_set_other. exact Hn.
Qed.

(** ** Solidity *)

Definition sol_root (x : json) : Prop := sol_regular x /\ forall t next, ~ sol_remark x t next.

Lemma sol_root_type ty n : is_sol ty n ->
  ~ In ty ["FunctionCall"; "FunctionCallOptions"; "Comment"; "StructuredDocumentation"; "InlineAssembly"] ->
  sol_root n.
Proof.
  intros Ht Hn.
  assert (D : forall s, is_sol s n -> s = ty).
  { unfold is_sol, has_field in *. intros s Hs. rewrite Hs in Ht. injection Ht as ->. reflexivity. }
  split; [ split; intro H; apply D in H; subst ty; cbn in Hn; tauto |].
  intros t next H. destruct H as [? H | ? ? H | ? H]; apply D in H; subst ty; cbn in Hn; tauto.
Qed.

Lemma sol_root_bare n : oget n "nodeType" = None -> sol_root n.
Proof.
  intro Ht.
  assert (D : forall s, ~ is_sol s n).
  { unfold is_sol, has_field in *. intros s Hs. rewrite Hs in Ht. discriminate Ht. }
  split; [ split; intro H; apply D in H; destruct H |].
  intros t next H. destruct H as [? H | ? ? H | ? H]; apply D in H; destruct H.
Qed.

Lemma sol_plain_scalar n : children n = [] -> oget n "nodeType" = None -> sol_plain n.
Proof.
  intros Hc Ht. apply ev_node; [ apply sol_root_bare; exact Ht |]. rewrite Hc. intros v [].
Qed.

Lemma sol_plain_list l : (forall v, In v l -> sol_plain v) -> sol_plain (JArr l).
Proof. intro H. apply ev_node; [ apply sol_root_bare; reflexivity | exact H ]. Qed.

(** ** Vyper *)

Definition vy_root (x : json) : Prop :=
  vy_regular x /\ (forall t next, ~ vy_remark x t next) /\ (forall v, ~ vy_commented_out x v).

Definition vy_special : list string := ["arguments"; "Bytes"; "Dict"; "Comment"; "FunctionDef"; "Module"].

Lemma vy_root_type ty n : is_vy ty n -> ~ In ty vy_special -> vy_root n.
Proof.
  intros Ht Hn.
  assert (D : forall s, is_vy s n -> s = ty).
  { unfold is_vy, has_field in *. intros s Hs. rewrite Hs in Ht. injection Ht as ->. reflexivity. }
  unfold vy_special in Hn.
  split; [ split; [| split ]; intro H; apply D in H; subst ty; cbn in Hn; tauto |]. split.
  - intros t next H. destruct H as [? H | ? ? [H | H]]; apply D in H; subst ty; cbn in Hn; tauto.
  - intros v [H _]. apply D in H. subst ty. cbn in Hn. tauto.
Qed.

Lemma vy_root_bare n : oget n "ast_type" = None -> vy_root n.
Proof.
  intro Ht.
  assert (D : forall s, ~ is_vy s n).
  { unfold is_vy, has_field in *. intros s Hs. rewrite Hs in Ht. discriminate Ht. }
  split; [ split; [| split ]; intro H; apply D in H; destruct H |]. split.
  - intros t next H. destruct H as [? H | ? ? [H | H]]; apply D in H; destruct H.
  - intros v [H _]. apply D in H. destruct H.
Qed.

Lemma vy_plain_scalar n : children n = [] -> oget n "ast_type" = None -> vy_plain n.
Proof.
  intros Hc Ht. apply ev_node; [ apply vy_root_bare; exact Ht |]. rewrite Hc. intros v [].
Qed.

Lemma vy_plain_list l : (forall v, In v l -> vy_plain v) -> vy_plain (JArr l).
Proof. intro H. apply ev_node; [ apply vy_root_bare; reflexivity | exact H ]. Qed.

(** ** The printer made total *)

Definition complete (e : env) : env := {|
  e_sha := e_sha e;
  e_pp := fun n => match e_pp e n with Ok s => Ok s | _ => Ok "" end;
  e_order := e_order e;
  e_oc := e_oc e;
  e_rand_float := e_rand_float e;
  e_show_float := e_show_float e;
  e_float_bytes := e_float_bytes e
|}.

Lemma complete_total e : printer_total (complete e).
Proof. intro n. cbn [complete e_pp]. destruct (e_pp e n); eexists; reflexivity. Qed.

Lemma complete_sol e n : reads_sol e -> sol_plain n -> e_pp (complete e) n = e_pp e n.
Proof. intros H Hn. destruct (H n Hn) as [s E]. cbn [complete e_pp]. rewrite E. reflexivity. Qed.

Lemma complete_vy e n : reads_vy e -> vy_plain n -> e_pp (complete e) n = e_pp e n.
Proof. intros H Hn. destruct (H n Hn) as [s E]. cbn [complete e_pp]. rewrite E. reflexivity. Qed.
