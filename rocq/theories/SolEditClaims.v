(** Every Solidity mutant is the program with one edit: lemmas for C93. *)
From Coq Require Import String Ascii List NArith ZArith Bool Lia.
From Verif Require Import Base Json JsonFacts Rng MutationType Traverse OpCommon SolMutators Comments Language Generator SpecTree SpecMutation SpecOps SpecTotal SpecPlain SpecAccept SpecReach SpecLiteral SpecVyText SpecSolText SpecSolEdit
  SpecComments SpecGenerator TraverseFacts TraverseFacts2 TraverseFacts3 AcceptFacts LocalFacts PlainFacts KeepSol CommentFacts
  SolText SolTextStmt SolTextClaims SolPlace SolStrip SolMade SolEditFacts.
From Verif Require OpFacts OpOrder OpClaims GenFacts SelFacts PathFacts GenLaws GenMore KeepFacts VyEditFacts VyEditClaims.
Import ListNotations.
Open Scope string_scope.
Open Scope list_scope.

(** ** Edits *)

Lemma chain_edited : forall (R : thing -> thing -> Prop) t0 t0' t t', chain t0 t0' t t' -> edited R t0 t0' -> edited R t t'.
Proof. intros R t0 t0' t t' E H. unfold chain in E. induction E as [t t' (-> & ->)|c c' t t' St E IH]; [exact H|exact (ed_inside _ _ _ _ _ St IH)]. Qed.

(** ** Trees of a program and nothing else *)

Lemma lean_iff : forall o, lean (JObj o) = true <->
  once (map fst o) = true /\ forall k v, In (k, v) o -> inert v = true \/ (In k (part_keys (node_type o)) /\ lean v = true).
Proof.
  intros o. cbn [lean]. rewrite andb_true_iff. apply and_iff_compat_l. set (ty := node_type o). clearbody ty. induction o as [|[k1 v1] o IH]; split; intros H; try tauto; try reflexivity.
  - intros k v [].
  - apply andb_true_iff in H. destruct H as (H1 & H2). intros k v [E|I]; [|exact (proj1 IH H2 k v I)]. injection E as -> ->.
    apply orb_true_iff in H1. destruct H1 as [H1|H1]; [now left|]. apply andb_true_iff in H1. right. split; [now apply smem_In|apply H1].
  - apply andb_true_iff. split; [|apply IH; intros k v I; apply H; now right]. apply orb_true_iff.
    destruct (H k1 v1 (or_introl eq_refl)) as [E|(I & E)]; [now left|right]. apply andb_true_iff. split; [now apply In_smem|exact E].
Qed.

Lemma lean_list : forall l, lean (JArr l) = true <-> Forall (fun x => lean x = true) l.
Proof. intros l. cbn [lean]. rewrite forallb_forall, Forall_forall. tauto. Qed.

Lemma inert_lean : forall j, inert j = true -> lean j = true.
Proof.
  intros j. induction j as [| | | |l IH|o IH] using json_ind'; intros H; try reflexivity.
  - apply lean_list. cbn [inert] in H. rewrite forallb_forall in H. rewrite Forall_forall in *. intros x I. exact (IH x I (H x I)).
  - apply lean_iff. split; [cbn [inert] in H; apply andb_true_iff in H; destruct H as (H & _); apply andb_true_iff in H; apply H|].
    intros k v I. left. exact (inert_fields o H k v I).
Qed.

Lemma field_lean : forall n k v, lean n = true -> fld n k v -> lean v = true.
Proof.
  intros [| | | | |o] k v L F; try discriminate F. apply lean_iff in L. destruct L as (_ & L).
  destruct (L k v (SolStrip.assoc_In _ _ _ _ F)) as [I|(_ & I)]; [now apply inert_lean|exact I].
Qed.

Lemma once_assoc : forall (o : list (string * json)) k v, once (map fst o) = true -> In (k, v) o -> assoc k o = Some v.
Proof.
  intros o k v. induction o as [|[k1 v1] o IH]; intros O I; [destruct I|]. cbn [map fst once] in O. apply andb_true_iff in O. destruct O as (O1 & O2). cbn [assoc].
  destruct I as [E|I]; [injection E as -> ->; now rewrite String.eqb_refl|]. destruct (k =?s k1) eqn:Q; [|auto]. apply String.eqb_eq in Q. subst k1.
  assert (S : smem k (map fst o) = true) by (apply In_smem; exact (in_map fst o (k, v) I)). rewrite S in O1. discriminate O1.
Qed.

Lemma type_is : forall o ty, is_n (JObj o) ty -> node_type o = ty.
Proof. intros o ty A. unfold is_n, fld, oget in A. unfold node_type. now rewrite A. Qed.

Lemma lean_set : forall n m ty k w, lean n = true -> is_n n ty -> field_becomes k w n m -> k <> "nodeType" ->
  (inert w = true \/ (In k (part_keys ty) /\ lean w = true)) -> lean m = true.
Proof.
  intros n m ty k w L A (o & o' & -> & -> & K & _ & F & E) Nk H. apply lean_iff in L. destruct L as (O & L). rewrite (type_is o ty A) in L. rewrite <- K in O.
  apply lean_iff. split; [exact O|]. assert (Ty : node_type o' = ty) by (apply type_is; unfold is_n, fld, oget in *; rewrite E by congruence; exact A). rewrite Ty.
  intros k1 v1 I. apply (once_assoc o' k1 v1 O) in I. destruct (string_dec k1 k) as [->|N]; [rewrite F in I; injection I as <-; exact H|].
  rewrite E in I by exact N. exact (L k1 v1 (SolStrip.assoc_In _ _ _ _ I)).
Qed.

Lemma hit_lean : forall x v v', (exists ty, is_n x ty /\ In ty active) -> hit x x v v' -> lean v = true -> lean x = true.
Proof.
  intros x v v' Tx H. induction H as [|o1 k w w' o2 H IH|a w w' b H IH]; intros L; [exact L| |].
  - apply IH. pose proof (hit_active x x Tx _ _ H) as Nw. apply lean_iff in L. destruct L as (_ & L).
    destruct (L k w) as [I|(_ & I)]; [apply in_or_app; right; now left|congruence|exact I].
  - apply IH. apply lean_list in L. apply Forall_app in L. destruct L as (_ & L). now inversion L.
Qed.
Lemma sub_lean : forall p v x, (exists ty, is_n x ty /\ In ty active) -> lean v = true -> subtree p v = Some x -> lean x = true.
Proof. intros p v x Tx L S. exact (hit_lean x v _ Tx (hit_at x x p v S) L). Qed.

Lemma lean_hit : forall x x' v v', (exists ty, is_n x ty /\ In ty active) -> is_object x' = true -> lean x' = true -> hit x x' v v' -> lean v = true -> lean v' = true.
Proof.
  intros x x' v v' Tx O Lx H. induction H as [|o1 k w w' o2 H IH|a w w' b H IH]; intros L; [exact Lx| |].
  - pose proof (hit_active x x' Tx _ _ H) as Nw. apply lean_iff in L. destruct L as (On & L).
    destruct (L k w) as [I|(Ik & Lw)]; [apply in_or_app; right; now left|congruence|]. apply lean_iff. split; [now rewrite map_app in *|].
    assert (Ty : node_type (o1 ++ (k, w') :: o2) = node_type (o1 ++ (k, w) :: o2)).
    { unfold node_type in *. destruct (assoc_mid o1 o2 k w w' "nodeType") as [E|(<- & E & E')]; [now rewrite E|]. exfalso. rewrite E in Ik.
      assert (Q : is_string w = false) by (destruct H; try reflexivity; destruct x; try reflexivity; destruct Tx as (ty & A & _); discriminate A).
      destruct w; try discriminate Q; exact Ik. }
    rewrite Ty. intros k1 v1 I. apply in_app_or in I. destruct I as [I|[I|I]].
    + apply L, in_or_app. now left.
    + injection I as <- <-. right. split; [exact Ik|now apply IH].
    + apply L, in_or_app. right. now right.
  - apply lean_list in L. apply lean_list. apply Forall_app in L. destruct L as (L1 & L2). inversion L2; subst. apply Forall_app. split; [exact L1|]. constructor; [now apply IH|assumption].
Qed.

(** The mutated node. *)

Lemma list_lean : forall n k l, lean n = true -> has_field n k (JArr l) -> Forall (fun x => lean x = true) l.
Proof. intros n k l L F. apply lean_list. exact (field_lean n k _ L F). Qed.

Ltac spell node := let n := eval lazy -[show_Z hex_encode show_bool] in node in change node with n.
Lemma wrap_lean : forall x, lean x = true -> uncommented x -> lean (strip (sol_unary_node "!" true (sol_tuple_node [x]))) = true.
Proof. intros x L U. spell (sol_unary_node "!" true (sol_tuple_node [x])). cbn -[is_comment]. rewrite (uncommented_root x U). cbn. rewrite strip_id, L by exact U. destruct (inert x); reflexivity. Qed.
Lemma require_lean : forall x, lean x = true -> uncommented x -> lean (strip (sol_require_node x)) = true.
Proof. intros x L U. spell (sol_require_node x). cbn -[is_comment]. rewrite (uncommented_root x U). cbn. rewrite strip_id, L by exact U. destruct (inert x); reflexivity. Qed.
Lemma unchecked_lean : forall x id, lean x = true -> uncommented x -> lean (strip (sol_unchecked_node [x] id)) = true.
Proof. intros x id L U. spell (sol_unchecked_node [x] id). cbn -[is_comment]. rewrite (uncommented_root x U). cbn. rewrite strip_id, L by exact U. destruct (inert x); reflexivity. Qed.

Lemma swap_Forall : forall A (P : A -> Prop) a x b y c, Forall P (a ++ x :: b ++ y :: c) -> Forall P (a ++ y :: b ++ x :: c).
Proof. intros A P a x b y c F. rewrite Forall_forall in *. intros z I. apply F. repeat (rewrite in_app_iff in *; cbn [In] in * ). tauto. Qed.

Lemma made_lean : forall t n n', sol_accepts t n -> lean n = true -> uncommented n -> made n t n' -> lean (strip n') = true.
Proof.
  intros t n n' Acc L U M. destruct M as [t k v n' F B|a b n' Fa Fb B|l x Fl Ix].
  - apply (strip_becomes _ _ _ _ U) in B.
    assert (List_ : forall k l, has_field n k (JArr l) -> Forall (fun x => lean x = true) l /\ Forall uncommented l).
    { intros k0 l Fl. split; [exact (list_lean n k0 l L Fl)|exact (list_uncommented n k0 l U Fl)]. }
    destruct F as [g class op op' Cl Fo Io No|p op op' Fp Fo Io No|z| |a x b Fl Tx Ne|a x b y c Fl|b|c Fc|z|a x b y c Fl Rx Ry|x l Fl|a x b id Fl Rx Ux|].
    + assert (A : exists ty, is_n n ty) by (destruct (accepted_active _ n Acc) as (ty & A & _); eauto). destruct A as (ty & A).
      apply (lean_set n _ ty _ _ L A B); [discriminate|now left].
    + destruct Acc as (A & _). apply (lean_set n _ _ _ _ L A B); [discriminate|now left].
    + destruct Acc as (A & _). apply (lean_set n _ _ _ _ L A B); [discriminate|right; split; [cbn; tauto|reflexivity]].
    + destruct Acc as (A & _). apply (lean_set n _ _ _ _ L A B); [discriminate|right; split; [cbn; tauto|reflexivity]].
    + destruct Acc as (A & _). destruct (List_ _ _ Fl) as (L1 & U1). apply (lean_set n _ _ _ _ L A B); [discriminate|right; split; [cbn; tauto|]].
      apply Forall_app in L1. destruct L1 as (La & Lb). inversion Lb; subst. apply Forall_app in U1. destruct U1 as (Ua & Ub). inversion Ub; subst.
      rewrite strip_arr, strips_app, strips_comment, !strips_id by (assumption || reflexivity). apply lean_list, Forall_app. auto.
    + destruct Acc as (A & _). destruct (List_ _ _ Fl) as (L1 & U1). apply (lean_set n _ _ _ _ L A B); [discriminate|right; split; [cbn; tauto|]].
      rewrite strip_arr, strips_id by (now apply swap_Forall). apply lean_list. now apply swap_Forall.
    + destruct Acc as (A & _). apply (lean_set n _ _ _ _ L A B); [discriminate|right; split; [cbn; tauto|destruct b; reflexivity]].
    + destruct Acc as (A & _). apply (lean_set n _ _ _ _ L A B); [discriminate|right; split; [cbn; tauto|]].
      apply wrap_lean; [exact (field_lean n _ _ L Fc)|exact (uncommented_field n _ _ U Fc)].
    + destruct Acc as (A & _). apply (lean_set n _ _ _ _ L A B); [discriminate|now left].
    + destruct Acc as (A & _). destruct (List_ _ _ Fl) as (L1 & U1). apply (lean_set n _ _ _ _ L A B); [discriminate|right; split; [cbn; tauto|]].
      rewrite strip_arr, strips_id by (now apply swap_Forall). apply lean_list. now apply swap_Forall.
    + destruct Acc as (A & _). destruct (List_ _ _ Fl) as (L1 & U1). apply (lean_set n _ _ _ _ L A B); [discriminate|right; split; [cbn; tauto|]].
      inversion L1; inversion U1; subst. rewrite strip_arr, strips_cons, strips_id by (assumption || reflexivity). apply lean_list. constructor; [now apply require_lean|assumption].
    + destruct Acc as (A & _). destruct (List_ _ _ Fl) as (L1 & U1). apply (lean_set n _ _ _ _ L A B); [discriminate|right; split; [cbn; tauto|]].
      apply Forall_app in L1. destruct L1 as (La & Lb). inversion Lb; subst. apply Forall_app in U1. destruct U1 as (Ua & Ub). inversion Ub; subst.
      rewrite strip_arr, strips_app, strips_cons, !strips_id by (assumption || reflexivity). apply lean_list, Forall_app. split; [assumption|]. constructor; [now apply unchecked_lean|assumption].
    + destruct Acc as (A & _). apply (lean_set n _ _ _ _ L A B); [discriminate|now left].
  - destruct Acc as (A & _). pose proof (uncommented_field n _ _ U Fa) as Ua. pose proof (uncommented_field n _ _ U Fb) as Ub.
    apply (strip_two _ _ _ _ _ _ U Ub Ua) in B. pose proof (field_lean n _ _ L Fa) as La. pose proof (field_lean n _ _ L Fb) as Lb. clear Fa Fb.
    destruct B as (o & o' & -> & -> & K & F1 & F2 & E). apply lean_iff in L. destruct L as (O & L). rewrite (type_is o _ A) in L. rewrite <- K in O.
    apply lean_iff. split; [exact O|]. assert (Ty : node_type o' = "BinaryOperation") by (apply type_is; unfold is_n, fld, oget in *; rewrite E by discriminate; exact A). rewrite Ty.
    intros k1 v1 I. apply (once_assoc o' k1 v1 O) in I. destruct (string_dec k1 "leftExpression") as [->|N]; [rewrite F1 in I; injection I as <-; right; split; [cbn; tauto|exact Lb]|].
    destruct (string_dec k1 "rightExpression") as [->|N']; [rewrite F2 in I; injection I as <-; right; split; [cbn; tauto|exact La]|].
    rewrite E in I by assumption. exact (L k1 v1 (SolStrip.assoc_In _ _ _ _ I)).
  - rewrite strip_id by exact (uncommented_elem l x (uncommented_field n _ _ U Fl) Ix). pose proof (list_lean n _ l L Fl) as F. rewrite Forall_forall in F. exact (F x Ix).
Qed.

Lemma field_object : forall k v n n', field_becomes k v n n' -> is_object n' = true.
Proof. intros k v n n' (o & o' & _ & -> & _). reflexivity. Qed.

Lemma any_object : forall license t n, any license t n -> is_object n = true.
Proof. intros license t n H. destruct (any_type license t n H) as (ty & A & _). destruct n; try discriminate A. reflexivity. Qed.
Lemma any_comment : forall license t n, any license t n -> is_comment n = false.
Proof.
  intros license t n H. destruct (is_comment n) eqn:C; [|reflexivity]. exfalso. unfold is_comment in C.
  destruct (any_type license t n H) as (ty & A & I). unfold is_n, fld in A. rewrite A in C. apply String.eqb_eq in C. subst ty. which I.
Qed.

(** ** The mutation *)

Lemma mutation_edit : forall license e t m p n ast fuel r d l,
  unit_node license l ast -> lean ast = true -> uncommented ast -> subtree p ast = Some n ->
  sol_crash_free t n -> sol_mutator_for e t = Some m -> mu_mutable m n = Ok true -> mu_mutate m fuel n r = Ok d ->
  let ast1 := set_subtree p (md_node d) ast in
  exists l', one_edit t l l' /\ unit_node license l' (strip ast1) /\ lean (strip ast1) = true.
Proof.
  intros license e t m p n ast fuel r d l C L U S Cf Hm Hmu Hd ast1.
  pose proof (proj1 (sol_accepts_iff e t m n Hm) Hmu) as Acc. pose proof (accepted_active t n Acc) as Tx.
  pose proof (sol_made e t m fuel n r d Cf Hm Hmu Hd) as M. pose proof (SolStrip.uncommented_sub _ _ _ U S) as Un. pose proof (sub_lean p ast n Tx L S) as Ln.
  pose proof (made_lean t n _ Acc Ln Un M) as Lm.
  pose proof (hit_at n (md_node d) p ast S) as Hi. fold ast1 in Hi.
  destruct (replaced_part license l ast ast1 n (md_node d) C L Tx Hi) as (t1 & K1 & _).
  destruct (outcome_edit license t1 t n (md_node d) K1 Acc Un M) as (t1' & _ & K2 & _).
  pose proof (any_object _ _ _ K2) as O. rewrite strip_object in O. pose proof (any_comment _ _ _ K2) as Cm. rewrite strip_comment in Cm.
  pose proof (hit_strip _ _ _ _ O Cm Hi U) as Hs.
  destruct (replaced_part license l ast (strip ast1) n (strip (md_node d)) C L Tx Hs) as (t0 & H0 & H).
  destruct (outcome_edit license t0 t n (md_node d) H0 Acc Un M) as (t0' & So & H1 & Ed).
  destruct (H t0' So H1) as (l' & C' & Ch). exists l'. split; [|split; [exact C'|]].
  - refine (chain_edited _ _ _ _ _ Ch _). now constructor.
  - refine (lean_hit n (strip (md_node d)) ast _ Tx _ Lm Hs L). now rewrite strip_object.
Qed.

(** ** Blocks and branches of the mutated tree *)

Definition sound (i : N) (m : json) : Prop :=
  (is_sol "Block" m -> exists l, oget m "statements" = Some (JArr l)) /\
  forall k b, In k ["trueBody"; "falseBody"; "block"] -> oget m k = Some b -> is_sol "Block" b -> sol_id b <> Some i.

Definition flat (j : json) : bool := match j with JArr _ | JObj _ => false | _ => true end.
Definition same_kind (c c' : json) : Prop := match c, c' with JObj _, JObj _ | JArr _, JArr _ => True | _, _ => False end.
Definition alike (c c' : json) : Prop := same_kind c c' /\ (is_sol "Block" c' -> is_sol "Block" c /\ sol_id c' = sol_id c).

Lemma id_of_list : forall n c c', same_kind c c' -> oget n "id" = Some c -> forall n', oget n' "id" = Some c' -> sol_id n = sol_id n'.
Proof.
  intros n c c' K F n' F'. unfold sol_id, get_ids, get_int. rewrite !kget_plain by reflexivity. rewrite F, F'. destruct c, c'; try (exact (False_ind _ K)); reflexivity.
Qed.
Lemma id_same : forall n n', oget n "id" = oget n' "id" -> sol_id n = sol_id n'.
Proof. intros n n' E. unfold sol_id, get_ids, get_int. rewrite !kget_plain by reflexivity. now rewrite E. Qed.

Lemma block_back : forall n i c c', nth_error (children n) i = Some c -> same_kind c c' -> is_sol "Block" (set_child i c' n) -> is_sol "Block" n.
Proof.
  intros n i c c' N K A. unfold is_sol, has_field in *. destruct (KeepFacts.set_child_oget i c c' n "nodeType" N) as [E|(_ & E)]; [now rewrite <- E|].
  rewrite E in A. injection A as ->. destruct c; exact (False_ind _ K).
Qed.

Lemma sound_root : forall id n i c c', sound id n -> nth_error (children n) i = Some c -> alike c c' -> sound id (set_child i c' n).
Proof.
  intros id n i c c' (B & R) N (K & A). split.
  - intros H. destruct (B (block_back n i c c' N K H)) as (l & F). destruct (KeepFacts.set_child_oget i c c' n "statements" N) as [E|(E & E')]; [exists l; now rewrite E|].
    rewrite F in E. injection E as <-. destruct c'; try (exact (False_ind _ K)). eauto.
  - intros k b I F Hb. destruct (KeepFacts.set_child_oget i c c' n k N) as [E|(E & E')]; [rewrite E in F; exact (R k b I F Hb)|].
    rewrite E' in F. injection F as <-. destruct (A Hb) as (Bc & ->). exact (R k c I E Bc).
Qed.
Lemma sound_up : forall id n i c c', sound id n -> nth_error (children n) i = Some c -> alike c c' -> alike n (set_child i c' n).
Proof.
  intros id n i c c' _ N (K & A). split; [destruct n; try (destruct i; discriminate N); exact Logic.I|].
  intros H. split; [exact (block_back n i c c' N K H)|]. destruct (KeepFacts.set_child_oget i c c' n "id" N) as [E|(E & E')]; [now apply id_same|].
  symmetry. exact (id_of_list n c c' K E _ E').
Qed.

Lemma sound_flat : forall i j, flat j = true -> everywhere (sound i) j.
Proof.
  intros i j F. apply ev_node; [|intros v I; destruct j; try discriminate F; destruct I].
  split; [intros A|intros k b _ A]; destruct j; try discriminate F; discriminate A.
Qed.
Lemma sound_list : forall i l, (forall x, In x l -> everywhere (sound i) x) -> everywhere (sound i) (JArr l).
Proof. intros i l H. apply ev_node; [split; [intros A|intros k b _ A]; discriminate A|exact H]. Qed.

(** A node that is no block and has no branch. *)
Lemma sound_node : forall i o, node_type o <> "Block" -> forallb (fun kv => negb (smem (fst kv) ["trueBody"; "falseBody"; "block"])) o = true ->
  Forall (fun kv => everywhere (sound i) (snd kv)) o -> everywhere (sound i) (JObj o).
Proof.
  intros i o T K F. apply ev_node.
  - split; [intros A; exfalso; apply T; now apply type_is|]. intros k b I A. exfalso. apply SolStrip.assoc_In in A. rewrite forallb_forall in K. specialize (K _ A).
    cbn [fst] in K. apply In_smem in I. now rewrite I in K.
  - intros v I. cbn [children] in I. apply in_map_iff in I. destruct I as ([k w] & <- & I). rewrite Forall_forall in F. exact (F _ I).
Qed.
Ltac sound_new := apply sound_node; [discriminate|reflexivity|]; repeat (apply Forall_cons); try (apply Forall_nil); cbn [snd]; try (apply sound_flat; reflexivity).

Lemma sound_number : forall i z, everywhere (sound i) (sol_int_node z).
Proof. intros i z. spell (sol_int_node z). sound_new. sound_new. Qed.
Lemma sound_truth : forall i b, everywhere (sound i) (sol_bool_node b).
Proof. intros i b. spell (sol_bool_node b). sound_new. sound_new. Qed.
Lemma sound_not : forall i x, everywhere (sound i) x -> everywhere (sound i) (sol_unary_node "!" true (sol_tuple_node [x])).
Proof.
  intros i x H. spell (sol_unary_node "!" true (sol_tuple_node [x])). sound_new. sound_new. apply sound_list. intros y [<-|[]]. exact H.
Qed.
Lemma sound_require : forall i x, everywhere (sound i) x -> everywhere (sound i) (sol_require_node x).
Proof.
  intros i x H. spell (sol_require_node x). sound_new; sound_new; try sound_new. apply sound_list. intros y [<-|[]]. exact H.
Qed.
Lemma sound_unchecked : forall i x id, everywhere (sound i) x -> everywhere (sound i) (sol_unchecked_node [x] id).
Proof.
  intros i x id H. spell (sol_unchecked_node [x] id). sound_new. apply sound_list. intros y [<-|[]]. exact H.
Qed.
Lemma sound_deleted : forall i x, everywhere (sound i) x -> everywhere (sound i) (sol_comment_node x).
Proof.
  intros i x H. assert (E : exists a b, sol_comment_node x = JObj [("id", a); ("isConstant", JBool false); ("isLValue", JBool false); ("isPure", JBool false);
    ("lValueRequested", JBool false); ("nodeType", JStr "Comment"); ("value", b)] /\ flat a = true /\ b = x).
  { eexists. eexists. split; [reflexivity|]. split; [|reflexivity]. unfold jint. destruct (_ <? 0)%Z; reflexivity. }
  destruct E as (a & b & -> & Fa & ->). sound_new; [now apply sound_flat|exact H].
Qed.

Lemma sound_filled : forall i n t k v, everywhere (sound i) n -> fills n t k v -> everywhere (sound i) v.
Proof.
  intros i n t k v H F.
  assert (G : forall l k, has_field n k (JArr l) -> forall x, In x l -> everywhere (sound i) x) by (intros l k0 Fl x I; exact (ev_elem _ n k0 l x H Fl I)).
  destruct F; try (apply sound_flat; reflexivity); try apply sound_number; try apply sound_truth.
  - apply sound_list. intros y I. apply in_app_or in I. destruct I as [I|[<-|I]]; [apply (G _ _ H0), in_or_app; now left| |apply (G _ _ H0), in_or_app; right; now right].
    apply sound_deleted. apply (G _ _ H0), in_or_app. right. now left.
  - apply sound_list. intros z I. apply (G _ _ H0). repeat (rewrite in_app_iff in *; cbn [In] in * ). tauto.
  - apply sound_not. exact (ev_field _ n _ _ H H0).
  - apply sound_list. intros z I. apply (G _ _ H0). repeat (rewrite in_app_iff in *; cbn [In] in * ). tauto.
  - apply sound_list. intros z [<-|I]; [apply sound_require, (G _ _ H0); now left|apply (G _ _ H0); now right].
  - apply sound_list. intros y I. apply in_app_or in I. destruct I as [I|[<-|I]]; [apply (G _ _ H0), in_or_app; now left| |apply (G _ _ H0), in_or_app; right; now right].
    apply sound_unchecked. apply (G _ _ H0), in_or_app. right. now left.
Qed.

(** The keys the mutators write. *)
Lemma fills_key : forall n t k v, fills n t k v -> ~ In k ["nodeType"; "id"; "trueBody"; "falseBody"; "block"] /\ (k = "statements" -> exists l, v = JArr l).
Proof. intros n t k v F. destruct F; (split; [cbn; intuition discriminate|intros E; first [discriminate E|eauto]]). Qed.

Lemma sound_made : forall i t n n', once (match n with JObj o => map fst o | _ => [] end) = true -> everywhere (sound i) n -> (t = Generic FunctionCall -> forall x l, has_field n "arguments" (JArr l) -> In x l -> is_object x = true /\ ~ is_sol "Block" x) ->
  is_object n = true -> made n t n' -> everywhere (sound i) n' /\ alike n n'.
Proof.
  intros i t n n' O H Arg On M. pose proof (ev_root _ _ H) as (B & R).
  destruct M as [t k v n' F Fb|a b n' Fa Fb Bc|l x Fl Ix].
  - pose proof (sound_filled i n t k v H F) as Hv. destruct (fills_key n t k v F) as (Nk & Ks). destruct Fb as (o & o' & -> & -> & K & _ & A & E).
    assert (G : forall k', In k' ["nodeType"; "id"; "trueBody"; "falseBody"; "block"] -> assoc k' o' = assoc k' o) by (intros k' I; apply E; intros ->; contradiction).
    assert (Bl : is_sol "Block" (JObj o') -> is_sol "Block" (JObj o)) by (unfold is_sol, has_field, oget; rewrite G by (cbn; tauto); trivial).
    split; [apply ev_node; [split|]|split; [exact Logic.I|]].
    + intros Hb. destruct (B (Bl Hb)) as (l & Fl). cbn [oget] in *. destruct (string_dec k "statements") as [->|N]; [rewrite A; destruct (Ks eq_refl) as (l' & ->); eauto|].
      rewrite E by congruence. eauto.
    + intros k' b I Fb Hb. cbn [oget] in *. rewrite G in Fb by (cbn in I |- *; tauto). exact (R k' b I Fb Hb).
    + intros w I. cbn [children] in I. apply in_map_iff in I. destruct I as ([k' w'] & <- & I). cbn [snd]. rewrite <- K in O. apply (once_assoc o' k' w' O) in I.
      destruct (string_dec k' k) as [->|N]; [rewrite A in I; injection I as <-; exact Hv|]. rewrite E in I by exact N. exact (ev_field _ (JObj o) k' w' H I).
    + intros Hb. split; [exact (Bl Hb)|]. apply id_same. cbn [oget]. apply G. cbn. tauto.
  - pose proof (ev_field _ _ _ _ H Fa) as Ha. pose proof (ev_field _ _ _ _ H Fb) as Hb. destruct Bc as (o & o' & -> & -> & K & A1 & A2 & E).
    assert (G : forall k', In k' ["nodeType"; "id"; "trueBody"; "falseBody"; "block"; "statements"] -> assoc k' o' = assoc k' o)
      by (intros k' I; apply E; intros ->; cbn in I; intuition discriminate).
    assert (Bl : is_sol "Block" (JObj o') -> is_sol "Block" (JObj o)) by (unfold is_sol, has_field, oget; rewrite G by (cbn; tauto); trivial).
    split; [apply ev_node; [split|]|split; [exact Logic.I|]].
    + intros Hbl. destruct (B (Bl Hbl)) as (l & Fl). cbn [oget] in *. rewrite G by (cbn; tauto). eauto.
    + intros k' b0 I F0 Hbl. cbn [oget] in *. rewrite G in F0 by (cbn in I |- *; tauto). exact (R k' b0 I F0 Hbl).
    + intros w I. cbn [children] in I. apply in_map_iff in I. destruct I as ([k' w'] & <- & I). cbn [snd]. rewrite <- K in O. apply (once_assoc o' k' w' O) in I.
      destruct (string_dec k' "leftExpression") as [->|N]; [rewrite A1 in I; injection I as <-; exact Hb|].
      destruct (string_dec k' "rightExpression") as [->|N']; [rewrite A2 in I; injection I as <-; exact Ha|]. rewrite E in I by assumption. exact (ev_field _ (JObj o) k' w' H I).
    + intros Hbl. split; [exact (Bl Hbl)|]. apply id_same. cbn [oget]. apply G. cbn. tauto.
  - destruct (Arg eq_refl x l Fl Ix) as (Ox & Nb). split; [exact (ev_elem _ n _ l x H Fl Ix)|]. split; [destruct n; try discriminate On; destruct x; try discriminate Ox; exact Logic.I|].
    intros Hb. now destruct Nb.
Qed.

Lemma first_field : forall o k v, assoc k o = Some v -> exists j, field_at (JObj o) j k v.
Proof.
  intros o k v. induction o as [|[k1 v1] o IH]; intros F; cbn [assoc] in F; [discriminate F|]. destruct (k =?s k1) eqn:Q.
  - apply String.eqb_eq in Q. subst k1. injection F as ->. exists 0, ((k, v) :: o). split; [reflexivity|]. split; [reflexivity|]. intros j w L. lia.
  - destruct (IH F) as (j & o0 & E & N & Fi). injection E as <-. exists (Datatypes.S j), ((k1, v1) :: o). split; [reflexivity|]. split; [exact N|].
    intros [|j'] w Lj; cbn [nth_error]; [intros E; injection E as -> _; now rewrite String.eqb_refl in Q|apply Fi; lia].
Qed.
Lemma at_get : forall n i k v, field_at n i k v -> oget n k = Some v.
Proof. intros n i k v F. destruct (VyEditClaims.home_becomes n i k v JNull F) as (A & _). exact A. Qed.

Lemma sound_blocks : forall i ast, everywhere (sound i) ast -> blocks_have_lists ast /\ ~ mutated_branch i ast.
Proof.
  intros i ast H. split.
  - intros p b S A. destruct (ev_part _ _ b H (ex_intro _ p S) [] b eq_refl) as (B & _). destruct (B A) as (l & F).
    destruct b as [| | | | |o]; try discriminate F. destruct (first_field o _ _ F) as (j & Fj). eauto.
  - intros (p & n & j & k & b & S & I & F & A & E). destruct (ev_part _ _ n H (ex_intro _ p S) [] n eq_refl) as (_ & R). exact (R k b I (at_get _ _ _ _ F) A E).
Qed.

Lemma unit_sound : forall license l ast i, unit_node license l ast -> lean ast = true -> ~ mutated_branch i ast -> everywhere (sound i) ast.
Proof.
  intros license l ast i C L N p m S. split.
  - intros A. assert (Tx : exists ty, is_n m ty /\ In ty active) by (exists "Block"; split; [exact A|cbn; tauto]).
    destruct (replaced_part license l ast _ m m C L Tx (hit_at m m p ast S)) as (t0 & H0 & _).
    destruct (is_block license t0 m H0 A) as (l0 & ->). destruct H0 as (_ & ns & F & _). eauto.
  - intros k b I F A E. apply N. destruct m as [| | | | |o]; try discriminate F. destruct (first_field o _ _ F) as (j & Fj). exists p, (JObj o), j, k, b. auto 10.
Qed.

Lemma arguments_plain : forall license t0 n x l, any license t0 n -> is_n n "FunctionCall" -> has_field n "arguments" (JArr l) -> In x l -> is_object x = true /\ ~ is_sol "Block" x.
Proof.
  intros license t0 n x l H A F I. assert (X : exists e, xnode e x).
  { destruct (is_call license t0 n H A) as (f & [(args & ->)|(args & ->)]).
    - destruct H as (_ & _ & (l0 & Fl & Hl) & _). unfold has_field, fld in *. rewrite F in Fl. injection Fl as <-. apply call_elements in Hl. apply in_split in I. destruct I as (u & w & ->). apply Forall2_mid_inv in Hl.
      destruct Hl as (eu & e & ew & _ & _ & Hx & _). eauto.
    - destruct H as (_ & _ & _ & _ & ks & vs & _ & Fl & Hl). unfold has_field, fld in *. rewrite F in Fl. injection Fl as <-. apply named_nodes in Hl. destruct Hl as (_ & Hl). apply in_split in I. destruct I as (u & w & ->). apply Forall2_mid_inv in Hl.
      destruct Hl as (eu & e & ew & _ & _ & Hx & _). eauto. }
  destruct X as (e & X). split; [exact (any_object license (TE e) x X)|]. intros Hb. destruct (is_block license (TE e) x X Hb) as (l0 & Q). discriminate Q.
Qed.

Lemma made_sound : forall license l ast i p n t n', unit_node license l ast -> lean ast = true -> ~ mutated_branch i ast ->
  subtree p ast = Some n -> sol_accepts t n -> made n t n' -> everywhere (sound i) (set_subtree p n' ast).
Proof.
  intros license l ast i p n t n' C L N S Acc M. pose proof (unit_sound license l ast i C L N) as H. pose proof (accepted_active t n Acc) as Tx.
  destruct (replaced_part license l ast _ n n C L Tx (hit_at n n p ast S)) as (t0 & H0 & _). pose proof (any_object _ _ _ H0) as On.
  pose proof (sub_lean p ast n Tx L S) as Ln.
  assert (Hn : everywhere (sound i) n) by (exact (ev_part _ _ n H (ex_intro _ p S))).
  assert (X : everywhere (sound i) n' /\ alike n n').
  { refine (sound_made i t n n' _ Hn _ On M); [destruct n; try reflexivity; exact (lean_once _ Ln)|].
    intros -> x l0 F I. destruct Acc as (A & _). exact (arguments_plain license t0 n x l0 H0 A F I). }
  exact (proj1 (KeepFacts.lift (sound i) alike (sound_root i) (sound_up i) p n' ast n H S (proj2 X) (proj1 X))).
Qed.

(** ** The comment *)

Definition braced (b : json) : json := JObj [("id", JNum (NumU 9999994)); ("nodeType", JStr "Block"); ("statements", JArr [b])].
Lemma braced_node : forall s b, cnode s b -> cnode (CBlock false [s]) (braced b).
Proof. intros s b H. split; [reflexivity|]. eexists. split; [reflexivity|]. split; [exact H|exact Logic.I]. Qed.

Ltac kept := match goal with E : forall k', _ -> oget ?n' k' = oget ?n k' |- _ =>
    unfold is_n, flag, gone, default_text, fld in *; rewrite E by discriminate; first [eassumption|idtac] end.
Ltac kept_part := match goal with
  | H : exists v, fld ?n ?k v /\ ?R |- exists v, fld ?n' ?k v /\ _ => let v := fresh "v" in let F := fresh "F" in let G := fresh "G" in destruct H as (v & F & G); exists v; split; [kept|exact G]
  end.

Lemma body_braced : forall license t0 n n' ty k s b, any license t0 n -> is_n n ty -> In (ty, k) sol_bodies -> fld n k b -> is_n b s -> s <> "Block" ->
  fld n' k (braced b) -> (forall k', k' <> k -> oget n' k' = oget n k') ->
  exists t0', sort t0 t0' /\ any license t0' n' /\ edited brace t0 t0'.
Proof.
  intros license t0 n n' ty k s b H A I F B Nb F' E.
  assert (Ib : forall c, cnode c b -> in_braces c (CBlock false [c])).
  { intros c Hc. split; [|reflexivity]. destruct c as [| |[]| | | | | | | | |]; try reflexivity. exfalso. apply Nb. destruct Hc as (B' & _). exact (same_type b _ _ B B'). }
  assert (Same : forall c v, fld n k v -> cnode c v -> v = b) by (intros c v Fv _; unfold fld in *; congruence).
  assert (Fun : forall f, mnode (MFun f) n -> ty = "FunctionDefinition" -> k = "body" -> exists f', mnode (MFun f') n' /\ brace (TM (MFun f)) (TM (MFun f'))).
  { intros f Hf -> ->. destruct Hf as (_ & Gd & Fk & Fn & Hp & Hv & Fvi & Fm & Ho & Hm & Hr & Fi & Hb).
    destruct (sf_body f) as [c|] eqn:Eb; cbn [xmaybe] in Hb; [|unfold gone, fld in *; congruence]. destruct Hb as (v & Fv & Hc). pose proof (Same c v Fv Hc) as ->.
    exists (with_body f (CBlock false [c])). split; [|apply br_fun with (s := c); [exact Eb|now apply Ib]].
    cbn [mnode]. unfold fun_node, with_body. cbn [sf_kind sf_name sf_params sf_visibility sf_virtual sf_mutability sf_override sf_modifiers sf_returns sf_body].
    split; [kept|]. split; [kept|]. split; [kept|]. split; [kept|]. split; [kept_part|].
    split; [destruct (sf_visibility f =?s ""); [destruct Hv as [Hv|(Q & Hv)]; [left|right; split; [exact Q|]]; kept|kept]|].
    split; [kept|]. split; [kept|]. split; [destruct (sf_override f); cbn [override_node] in *; [destruct Ho as (v & ns & Fv' & Hv'); exists v, ns; split; [kept|exact Hv']|kept]|].
    split; [destruct Hm as (ns & Fns & Hns); exists ns; split; [kept|exact Hns]|]. split; [kept_part|]. split; [kept|]. cbn [xmaybe]. exists (braced b). split; [exact F'|now apply braced_node]. }
  assert (Mod : forall f ps vi o c, mnode (MModifier f ps vi o c) n -> ty = "ModifierDefinition" -> k = "body" -> exists c', mnode (MModifier f ps vi o c') n' /\ brace (TM (MModifier f ps vi o c)) (TM (MModifier f ps vi o c'))).
  { intros f ps vi o c Hf -> ->. destruct Hf as (_ & Gd & Fn & Hp & Fvi & Ho & Hb).
    destruct c as [c|]; cbn [xmaybe] in Hb; [|unfold gone, fld in *; congruence]. destruct Hb as (v & Fv & Hc). pose proof (Same c v Fv Hc) as ->.
    exists (Some (CBlock false [c])). split; [|apply br_modifier; now apply Ib]. cbn [mnode].
    split; [kept|]. split; [kept|]. split; [kept|]. split; [kept_part|]. split; [kept|].
    split; [destruct o; cbn [override_node] in *; [destruct Ho as (v & ns & Fv' & Hv'); exists v, ns; split; [kept|exact Hv']|kept]|].
    cbn [xmaybe]. exists (braced b). split; [exact F'|now apply braced_node]. }
  cbn in I. destruct I as [I|[I|[I|[I|[I|[I|[I|[I|[]]]]]]]]]; injection I as <- <-.
  - destruct (is_do license t0 n H A) as (e & c & ->). destruct H as (_ & He & (v & Fv & Hc)). pose proof (Same c v Fv Hc) as ->.
    exists (TS (CDo (CBlock false [c]) e)). split; [exact Logic.I|]. split; [|constructor; constructor; now apply Ib].
    split; [kept|]. split; [kept_part|]. exists (braced b). split; [exact F'|now apply braced_node].
  - destruct (is_for license t0 n H A) as (i & e & lp & c & ->). destruct H as (_ & Hi & He & Hl & (v & Fv & Hc)). pose proof (Same c v Fv Hc) as ->.
    exists (TS (CFor i e lp (CBlock false [c]))). split; [exact Logic.I|]. split; [|constructor; constructor; now apply Ib].
    split; [kept|]. split; [destruct i; [kept_part|kept]|]. split; [destruct e; cbn [xmaybe] in *; [kept_part|kept]|].
    split; [destruct lp; [destruct Hl as (v & x & Fl & Hl); exists v, x; split; [kept|exact Hl]|kept]|]. exists (braced b). split; [exact F'|now apply braced_node].
  - destruct (is_function license t0 n H A) as (f & [-> | ->]); destruct (Fun f H eq_refl eq_refl) as (f' & H' & Br).
    + exists (TM (MFun f')). split; [exact Logic.I|]. split; [exact H'|]. now constructor.
    + exists (TP (PMember (MFun f'))). split; [exact Logic.I|]. split; [exact H'|]. eapply ed_inside; [apply st_outside|]. now constructor.
  - destruct (is_modifier license t0 n H A) as (f & ps & vi & o & c & [-> | ->]); destruct (Mod f ps vi o c H eq_refl eq_refl) as (c' & H' & Br).
    + exists (TM (MModifier f ps vi o c')). split; [exact Logic.I|]. split; [exact H'|]. now constructor.
    + exists (TP (PMember (MModifier f ps vi o c'))). split; [exact Logic.I|]. split; [exact H'|]. eapply ed_inside; [apply st_outside|]. now constructor.
  - destruct (is_while license t0 n H A) as (e & c & ->). destruct H as (_ & He & (v & Fv & Hc)). pose proof (Same c v Fv Hc) as ->.
    exists (TS (CWhile e (CBlock false [c]))). split; [exact Logic.I|]. split; [|constructor; constructor; now apply Ib].
    split; [kept|]. split; [kept_part|]. exists (braced b). split; [exact F'|now apply braced_node].
  - destruct (is_if license t0 n H A) as (e & c & o & ->). destruct H as (_ & He & (v & Fv & Hc) & Ho). pose proof (Same c v Fv Hc) as ->.
    exists (TS (CIf e (CBlock false [c]) o)). split; [exact Logic.I|]. split; [|constructor; constructor; now apply Ib].
    split; [kept|]. split; [kept_part|]. split; [exists (braced b); split; [exact F'|now apply braced_node]|]. destruct o; [kept_part|kept].
  - destruct (is_if license t0 n H A) as (e & c & o & ->). destruct H as (_ & He & Hy & Ho). destruct o as [o|]; [|unfold gone, fld in *; congruence].
    destruct Ho as (v & Fv & Hc). pose proof (Same o v Fv Hc) as ->.
    exists (TS (CIf e c (Some (CBlock false [o])))). split; [exact Logic.I|]. split; [|constructor; constructor; now apply Ib].
    split; [kept|]. split; [kept_part|]. split; [kept_part|]. exists (braced b). split; [exact F'|now apply braced_node].
  - exfalso. exact (is_clause license t0 n H A).
Qed.

Lemma bodies_active : forall ty k, In (ty, k) sol_bodies -> In ty active.
Proof. intros ty k I. cbn in I. repeat (destruct I as [I|I]; [injection I as <- <-; cbn; tauto|]). destruct I. Qed.

Lemma type_comment : forall n ty, is_n n ty -> is_comment n = (ty =?s "Comment").
Proof. intros n ty A. unfold is_comment. unfold is_n, fld in A. now rewrite A. Qed.

Lemma before_strips : forall idm id c l l', is_comment c = true -> before_first idm id c l l' -> strips l' = strips l.
Proof. intros idm id c l l' C (l1 & x & l2 & -> & -> & _). rewrite !strips_app. f_equal. now apply strips_comment. Qed.

Lemma comment_braces : forall license l ast c path, unit_node license l (strip ast) -> lean (strip ast) = true -> is_comment c = true ->
  blocks_have_lists ast -> ~ mutated_branch (last path 0%N) ast ->
  exists l', same_but_braces l l' /\ unit_node license l' (strip (insert_comment_by_path sol_id sol_member sol_insert ast c path)).
Proof.
  intros license l ast c path U L C Bl Mb.
  destruct (sol_comment_lemma ast c path Bl Mb) as [(outer & up & inner & p & n & q & x & y & _ & S & _ & Pl & Sq & Rp & _)|(E & _)].
  2:{ exists l. rewrite E. split; [now left|exact U]. }
  rewrite (replaced_at_unique _ _ _ _ _ Sq Rp). set (id := last path 0%N) in *.
  assert (Lists : forall l0 l', x = JArr l0 -> y = JArr l' -> strips l' = strips l0 ->
    exists l', same_but_braces l l' /\ unit_node license l' (strip (set_subtree (p ++ q) y ast))).
  { intros l0 l' -> -> Es. exists l. split; [now left|]. rewrite (strip_set_same _ _ _ _ Sq); [exact U|reflexivity|reflexivity|reflexivity|]. now rewrite !strip_arr, Es. }
  destruct Pl as [ty k i l0 l' I A F Be|ty k i b j l0 l' I A F Hb Ni Fj Be|ty k i b j l0 I A F Hb Ni Fj|ty k i b s I A F Hs Ns Ct].
  - apply (Lists _ _ eq_refl eq_refl). now apply (before_strips sol_id id c).
  - apply (Lists _ _ eq_refl eq_refl). now apply (before_strips sol_id id c).
  - apply (Lists _ _ eq_refl eq_refl). now apply strips_comment.
  - rewrite <- (set_subtree_app p [i] _ ast n S). set (n' := set_subtree [i] (wrapping c b) n).
    destruct (VyEditClaims.home_becomes n i k b (wrapping c b) F) as (Fk & Fk' & E). fold n' in Fk', E.
    assert (Nk : k <> "nodeType") by (cbn in I; repeat (destruct I as [I|I]; [injection I as <- <-; discriminate|]); destruct I).
    assert (A' : is_n n' ty) by (unfold is_n, fld; rewrite E by congruence; exact A).
    assert (Nc : (ty =?s "Comment") = false) by (cbn in I; repeat (destruct I as [I|I]; [injection I as <- <-; reflexivity|]); destruct I).
    assert (On : is_string n = false) by (destruct n; try discriminate A; reflexivity). assert (On' : is_string n' = false) by (destruct n'; try discriminate A'; reflexivity).
    destruct (strip_set p n' ast n S On On') as [Es|Hi]; [rewrite (type_comment _ _ A'); exact Nc|rewrite (type_comment _ _ A); exact Nc|exists l; rewrite Es; split; [now left|exact U]|].
    assert (At : is_n (strip n) ty) by now apply strip_type.
    destruct (replaced_part license l _ _ (strip n) (strip n') U L (ex_intro _ ty (conj At (bodies_active ty k I))) Hi) as (t0 & H0 & H).
    assert (Cb : is_comment b = false).
    { rewrite (type_comment b s Hs). destruct (s =?s "Comment") eqn:Q; [|reflexivity]. exfalso. apply String.eqb_eq in Q. subst s.
      assert (Hs' : is_n (strip b) "Comment") by now apply strip_type. assert (Fs : fld (strip n) k (strip b)) by (unfold fld; rewrite strip_get; unfold fld in Fk; now rewrite Fk).
      assert (G : forall t, cnode t (strip b) -> False).
      { intros t Ht. pose proof (any_comment license (TS t) _ Ht) as Q. rewrite (type_comment _ _ Hs') in Q. discriminate Q. }
      cbn in I. destruct I as [I|[I|[I|[I|[I|[I|[I|[I|[]]]]]]]]]; injection I as <- <-.
      - destruct (is_do license t0 _ H0 At) as (e & c0 & ->). destruct H0 as (_ & _ & (v & Fv & Hc)). unfold fld in *. rewrite Fs in Fv. injection Fv as <-. exact (G _ Hc).
      - destruct (is_for license t0 _ H0 At) as (i0 & e & lp & c0 & ->). destruct H0 as (_ & _ & _ & _ & (v & Fv & Hc)). unfold fld in *. rewrite Fs in Fv. injection Fv as <-. exact (G _ Hc).
      - destruct (is_function license t0 _ H0 At) as (f & [-> | ->]); destruct H0 as (_ & _ & _ & _ & _ & _ & _ & _ & _ & _ & _ & _ & Hb); (destruct (sf_body f); cbn [xmaybe] in Hb; [|unfold gone, fld in *; congruence]);
          destruct Hb as (v & Fv & Hc); unfold fld in *; rewrite Fs in Fv; injection Fv as <-; exact (G _ Hc).
      - destruct (is_modifier license t0 _ H0 At) as (f & ps & vi & o & c0 & [-> | ->]); destruct H0 as (_ & _ & _ & _ & _ & _ & Hb); (destruct c0; cbn [xmaybe] in Hb; [|unfold gone, fld in *; congruence]);
          destruct Hb as (v & Fv & Hc); unfold fld in *; rewrite Fs in Fv; injection Fv as <-; exact (G _ Hc).
      - destruct (is_while license t0 _ H0 At) as (e & c0 & ->). destruct H0 as (_ & _ & (v & Fv & Hc)). unfold fld in *. rewrite Fs in Fv. injection Fv as <-. exact (G _ Hc).
      - destruct (is_if license t0 _ H0 At) as (e & c0 & o & ->). destruct H0 as (_ & _ & (v & Fv & Hc) & _). unfold fld in *. rewrite Fs in Fv. injection Fv as <-. exact (G _ Hc).
      - destruct (is_if license t0 _ H0 At) as (e & c0 & o & ->). destruct H0 as (_ & _ & _ & Ho). destruct o; [|unfold gone, fld in *; congruence]. destruct Ho as (v & Fv & Hc). unfold fld in *. rewrite Fs in Fv. injection Fv as <-. exact (G _ Hc).
      - exact (is_clause license t0 _ H0 At). }
    assert (Ew : strip (wrapping c b) = braced (strip b)).
    { unfold wrapping, braced. rewrite strip_obj. cbn [strip_fields map fst snd]. rewrite strip_arr, (strips_comment c) by exact C. rewrite strips_cons by exact Cb. reflexivity. }
    destruct (body_braced license t0 (strip n) (strip n') ty k s (strip b) H0 At I) as (t0' & So & H1 & Ed).
    + unfold fld. rewrite strip_get. unfold fld in Fk. now rewrite Fk.
    + now apply strip_type.
    + exact Ns.
    + unfold fld. rewrite strip_get. unfold fld in Fk'. rewrite Fk'. cbn [option_map]. now rewrite Ew.
    + intros k' N. rewrite !strip_get. now rewrite E.
    + destruct (H t0' So H1) as (l' & U' & Ch). exists l'. split; [right; exact (chain_edited _ _ _ _ _ Ch Ed)|exact U'].
Qed.

(** ** Runs *)

Import OpOrder OpClaims GenFacts SelFacts PathFacts GenLaws.

(** What a mutant is, with the node the comment is looked for. *)
Lemma mutation_path : forall G W P fuel ast r, supported G -> rearranges (w_order W) ->
  forall ast' mr, In (ast', mr) (mutants (fst (generate G W P fuel ast r))) ->
  exists t m p n r0 d ast1,
    mr_type mr = Some t /\ In t (rp_types P) /\ l_mutator_for (gl_lang G) t = Some m /\
    subtree p ast = Some n /\ mu_mutable m n = Ok true /\ mu_mutate m fuel n r0 = Ok d /\
    ast1 = set_subtree p (md_node d) ast /\
    (ast' = ast1 \/ exists comment path, md_comment d = Some comment /\ (forall i, mr_node mr = Some i -> last path 0%N = i) /\
       ast' = insert_comment_by_path (l_id (gl_lang G)) (l_member (gl_lang G)) (l_insert (gl_lang G)) ast1 comment path).
Proof.
  intros G W P fuel ast r HG Ho ast' mr. destruct (generate G W P fuel ast r) as (evs, out) eqn:E. cbn [fst].
  apply generate_split in E as [((-> & _) & _)|(c & pm & head & prints & ts & r1 & body & done & Hc & _ & Hpm & -> & (Hh & _) & Hs & Hb)].
  { intros []. }
  rewrite mutants_app, Hh, (batch_mutants _ _ _ _ _ _ _ _ _ _ _ _ _ _ Hb). cbn [app]. intros Hi.
  apply in_map_iff in Hi as ((t & x) & Ex & Hi). cbn [snd] in Ex. subst x.
  pose proof (batch_made _ _ _ _ _ _ _ _ _ _ _ _ _ _ Hb) as Hm. rewrite Forall_forall in Hm. specialize (Hm _ Hi).
  cbn [fst snd] in Hm. destruct (made_label _ _ _ _ _ _ _ _ _ HG Ho Hc Hm) as (El & _). cbn [snd] in El.
  destruct Hm as (i & n & r0 & r' & _ & _ & Hm). cbn [fst snd] in Hm. unfold mutate_ast in Hm.
  destruct (mm_get t _) as [m|] eqn:Eg; [|discriminate].
  rewrite reordered_get, select_get in Eg by first [assumption|apply (supported_ok G HG)].
  destruct (existsb (mt_eqb t) (rp_types P)) eqn:Ex; [|discriminate].
  apply existsb_exists in Ex as (t' & Ht' & Et). apply mt_eqb_eq in Et. subst t'.
  cbn [mm_get] in Eg. destruct (l_mutator_for (gl_lang G) t) as [m'|] eqn:El'; [|discriminate]. injection Eg as ->.
  destruct (make_mutation _ _ m fuel i ast r0) as [[ast1 s]| | |] eqn:Em; try discriminate. cbn [bind] in Hm.
  assert (Hloc := Em). apply make_mutation_local in Hloc.
  destruct Hloc as [(-> & Hcm & Hr & _)|(p & nd & d & A & Hin & B & C & -> & D & Dr & _ & Di)].
  { injection Hm as _ Hmr _. rewrite Hr in Hmr. subst mr. discriminate. }
  exists t, m, p, nd, r0, d, (set_subtree p (md_node d) ast).
  split; [exact El|]. split; [exact Ht'|]. split; [exact El'|]. split; [exact A|]. split; [exact B|]. split; [exact C|].
  split; [reflexivity|].
  injection Hm as Ha Hmr _. rewrite D in Ha. destruct (md_comment d) as [cm|]; [|left; congruence].
  destruct (pm_get (mk_node_id s) pm) as [q|] eqn:Eq; [right; exists cm, q; split; [reflexivity|split; [|congruence]]|left; congruence].
  intros i0 Hi0. rewrite <- Hmr in Hi0. cbn [mr_node] in Hi0. rewrite Dr in Hi0. rewrite Hi0 in Di.
  destruct (paths_sound _ _ _ _ _ _ Hpm Eq) as (p0 & n0 & S0 & I0 & ->). destruct (id_chain_last _ _ _ _ _ S0 I0) as (up & ->).
  rewrite last_last. exact Di.
Qed.

Lemma solidity_mutants_edit : forall e W P fuel license ast r l, rearranges (w_order W) ->
  unit_node license l ast -> lean ast = true -> uncommented ast ->
  (forall p n t, subtree p ast = Some n -> In t (rp_types P) -> sol_accepts t n -> sol_crash_free t n) ->
  forall ast' mr i, In (ast', mr) (mutants (fst (generate (solidity_files e) W P fuel ast r))) ->
  mr_node mr = Some i -> ~ mutated_branch i ast ->
  exists t l1 l', mr_type mr = Some t /\ In t (rp_types P) /\ one_edit t l l1 /\ same_but_braces l1 l' /\
    unit_node license l' (without_comments ast').
Proof.
  intros e W P fuel license ast r l Ho C L U Cf ast' mr i H Hi Nb.
  destruct (mutation_path (solidity_files e) W P fuel ast r (ex_intro _ e (or_introl eq_refl)) Ho ast' mr H)
    as (t & m & p & n & r0 & d & ast1 & Ht & It & Hm & S & Hmu & Hd & -> & Fin).
  cbn [solidity_files gl_lang solidity l_mutator_for l_id l_member l_insert] in *.
  pose proof (proj1 (sol_accepts_iff e t m n Hm) Hmu) as Acc.
  destruct (mutation_edit license e t m p n ast fuel r0 d l C L U S (Cf _ _ _ S It Acc) Hm Hmu Hd) as (l1 & Ed & U1 & L1).
  exists t, l1. destruct Fin as [->|(c & path & Hc & Hp & ->)].
  - exists l1. split; [exact Ht|]. split; [exact It|]. split; [exact Ed|]. split; [now left|exact U1].
  - pose proof (sol_made e t m fuel n r0 d (Cf _ _ _ S It Acc) Hm Hmu Hd) as M.
    destruct (sound_blocks i _ (made_sound license l ast i p n t (md_node d) C L Nb S Acc M)) as (Bl & Mb). rewrite <- (Hp i Hi) in Mb.
    destruct (sol_note e t m fuel n r0 d c Hm Hd Hc) as (text & ->).
    destruct (comment_braces license l1 _ (sol_comment text) path U1 L1 eq_refl Bl Mb) as (l' & Sb & U').
    exists l'. split; [exact Ht|]. split; [exact It|]. split; [exact Ed|]. split; [exact Sb|exact U'].
Qed.
