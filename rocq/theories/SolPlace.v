(** One node of the tree of a Solidity program replaced: which part of the
    program that is. *)
From Coq Require Import String Ascii List NArith ZArith Bool Lia.
From Verif Require Import Base Json JsonFacts SpecTree SpecMutation SpecLiteral SpecVyText SpecSolText SpecSolEdit LocalFacts SolText SolTextStmt SolTextClaims.
Import ListNotations.
Open Scope string_scope.
Open Scope list_scope.

Section Place.
Variable license : option string.

Definition any (t : thing) (v : json) : Prop :=
  match t with
  | TE e => xnode e v
  | TV d => var_node d v
  | TS s => cnode s v
  | TM m => mnode m v
  | TP p => pnode p v
  | TU l => unit_node license l v
  end.

Definition sort (t t' : thing) : Prop :=
  match t, t' with TE _, TE _ | TV _, TV _ | TS _, TS _ | TM _, TM _ | TP _, TP _ | TU _, TU _ => True | _, _ => False end.

Lemma sort_TE : forall e t, sort (TE e) t -> exists e', t = TE e'.
Proof. intros e [e'|e'|e'|e'|e'|e'] H; try (exact (False_ind _ H)). eauto. Qed.
Lemma sort_TV : forall e t, sort (TV e) t -> exists e', t = TV e'.
Proof. intros e [e'|e'|e'|e'|e'|e'] H; try (exact (False_ind _ H)). eauto. Qed.
Lemma sort_TS : forall e t, sort (TS e) t -> exists e', t = TS e'.
Proof. intros e [e'|e'|e'|e'|e'|e'] H; try (exact (False_ind _ H)). eauto. Qed.
Lemma sort_TM : forall e t, sort (TM e) t -> exists e', t = TM e'.
Proof. intros e [e'|e'|e'|e'|e'|e'] H; try (exact (False_ind _ H)). eauto. Qed.
Lemma sort_TP : forall e t, sort (TP e) t -> exists e', t = TP e'.
Proof. intros e [e'|e'|e'|e'|e'|e'] H; try (exact (False_ind _ H)). eauto. Qed.

(** ** Lists *)

Lemma Forall2_mid_inv : forall A B (R : A -> B -> Prop) es u w v, Forall2 R es (u ++ w :: v) ->
  exists eu e ev, es = eu ++ e :: ev /\ Forall2 R eu u /\ R e w /\ Forall2 R ev v.
Proof.
  intros A B R es u w v F. apply Forall2_app_inv_r in F. destruct F as (eu & r & F1 & F2 & ->). inversion F2 as [|e ? ev ? H F3]; subst.
  exists eu, e, ev. auto.
Qed.

Lemma Forall2_mid : forall A B (R : A -> B -> Prop) eu e ev u w v, Forall2 R eu u -> R e w -> Forall2 R ev v -> Forall2 R (eu ++ e :: ev) (u ++ w :: v).
Proof. intros. apply Forall2_app; [assumption|constructor; assumption]. Qed.

Lemma xelements_of : forall R es ns, Forall2 R es ns -> xelements R es ns.
Proof. intros R es ns F. induction F; cbn [xelements]; auto. Qed.

Lemma Forall_mid : forall A (P : A -> Prop) u w v, Forall P (u ++ w :: v) -> P w.
Proof. intros A P u w v F. rewrite Forall_forall in F. apply F. apply in_or_app. right. now left. Qed.

(** The named arguments, the components, the statements. *)
Lemma named_nodes : forall (kvs : list (string * sexp)) ks vs,
  (fix go (kvs : list (string * sexp)) (ks vs : list json) :=
    match kvs, ks, vs with
    | [], [], [] => True
    | kv :: kvs, k :: ks, v :: vs => k = JStr (fst kv) /\ xnode (snd kv) v /\ go kvs ks vs
    | _, _, _ => False
    end) kvs ks vs <-> (ks = map (fun kv => JStr (fst kv)) kvs /\ Forall2 (fun kv => xnode (snd kv)) kvs vs).
Proof.
  induction kvs as [|kv kvs IH]; intros [|k ks] [|v vs]; split; intros H;
    try solve [split; constructor|destruct H|destruct H as (H1 & H2); inversion H2|destruct H as (H1 & H2); discriminate H1].
  - destruct H as (A & B & C). apply IH in C. destruct C as (-> & C). split; [now subst k|constructor; assumption].
  - destruct H as (H1 & H2). injection H1 as -> ->. inversion H2; subst. repeat split; [assumption|]. apply IH. auto.
Qed.

Lemma tuple_nodes : forall (l : list (option sexp)) ns,
  (fix go (l : list (option sexp)) ns := match l, ns with
                       | [], [] => True
                       | x :: l, n :: ns => match x with Some e => xnode e n | None => n = JNull end /\ go l ns
                       | _, _ => False
                       end) l ns <-> Forall2 (hole_node xnode) l ns.
Proof.
  induction l as [|x l IH]; intros [|n ns]; split; intros H; try solve [constructor|destruct H|inversion H].
  - destruct H as (A & B). constructor; [destruct x; exact A|now apply IH].
  - inversion H as [|? ? ? ? A B]; subst. split; [destruct x; exact A|now apply IH].
Qed.

Lemma block_nodes : forall (l : list sstmt) ns,
  (fix go l ns := match l, ns with
                        | [], [] => True
                        | s :: l, n :: ns => cnode s n /\ go l ns
                        | _, _ => False
                        end) l ns <-> Forall2 cnode l ns.
Proof.
  induction l as [|x l IH]; intros [|n ns]; split; intros H; try solve [constructor|destruct H|inversion H].
  - destruct H as (A & B). constructor; [exact A|now apply IH].
  - inversion H as [|? ? ? ? A B]; subst. split; [exact A|now apply IH].
Qed.

(** ** Objects *)

Lemma smem_In : forall k l, smem k l = true -> In k l.
Proof. intros k l. induction l as [|y l IH]; cbn [smem]; intros H; [discriminate H|]. destruct (k =?s y) eqn:E; [apply String.eqb_eq in E; now left|right; auto]. Qed.
Lemma In_smem : forall k l, In k l -> smem k l = true.
Proof. intros k l. induction l as [|y l IH]; cbn [smem In]; intros H; [destruct H|]. destruct H as [->|H]; [now rewrite String.eqb_refl|]. destruct (k =?s y); auto. Qed.

Lemma lean_obj : forall o k w, lean (JObj o) = true -> In (k, w) o -> inert w = false ->
  In k (part_keys (node_type o)) /\ lean w = true.
Proof.
  intros o k w L I W. cbn [lean] in L. apply andb_true_iff in L. destruct L as (_ & L).
  set (ty := node_type o) in *. clearbody ty. induction o as [|[k1 v1] o IH]; [destruct I|].
  apply andb_true_iff in L. destruct L as (L1 & L2). destruct I as [I|I]; [|exact (IH L2 I)].
  injection I as -> ->. rewrite W in L1. cbn [orb] in L1. apply andb_true_iff in L1. destruct L1 as (L1 & L3). split; [|exact L3].
  now apply smem_In.
Qed.

Lemma lean_once : forall o, lean (JObj o) = true -> once (map fst o) = true.
Proof. intros o L. cbn [lean] in L. apply andb_true_iff in L. apply L. Qed.

Lemma smem_mid : forall k a b, smem k (a ++ k :: b) = true.
Proof. intros k a b. apply In_smem, in_or_app. right. now left. Qed.

Section Hit.
Variables x x' : json.
Hypothesis Tx : exists ty, is_n x ty /\ In ty active.

Inductive hit : json -> json -> Prop :=
| hit_here : hit x x'
| hit_obj : forall o1 k w w' o2, hit w w' -> hit (JObj (o1 ++ (k, w) :: o2)) (JObj (o1 ++ (k, w') :: o2))
| hit_arr : forall a w w' b, hit w w' -> hit (JArr (a ++ w :: b)) (JArr (a ++ w' :: b)).

Lemma hit_at : forall p n, subtree p n = Some x -> hit n (set_subtree p x' n).
Proof.
  induction p as [|i p IH]; intros n H; cbn [subtree set_subtree] in *.
  - injection H as ->. constructor.
  - destruct (nth_error (children n) i) as [c|] eqn:E; [|discriminate H]. specialize (IH c H).
    destruct n as [| | | |l|o]; cbn [children] in E; try (destruct i; discriminate E).
    + destruct (nth_cut _ _ _ _ E) as (l1 & l2 & -> & <-). cbn [set_child]. rewrite replace_cut. now constructor.
    + rewrite nth_error_map in E. destruct (nth_error o i) as [[k v]|] eqn:F; cbn in E; [|discriminate E]. injection E as ->.
      destruct (nth_cut _ _ _ _ F) as (l1 & l2 & -> & <-). cbn [set_child]. rewrite set_value_cut. now constructor.
Qed.

Lemma x_object : exists o, x = JObj o /\ In (node_type o) active.
Proof.
  destruct Tx as (ty & A & I). unfold is_n, fld, oget in A. destruct x as [| | | | |o]; try discriminate A. exists o. split; [reflexivity|].
  unfold node_type. now rewrite A.
Qed.

Lemma inert_fields : forall o, inert (JObj o) = true -> forall k w, In (k, w) o -> inert w = true.
Proof.
  intros o H. cbn [inert] in H. apply andb_true_iff in H. destruct H as (_ & H). induction o as [|[k1 v1] o IH]; intros k w I; [destruct I|].
  apply andb_true_iff in H. destruct H as (H1 & H2). destruct I as [I|I]; [injection I as <- <-; exact H1|exact (IH H2 k w I)].
Qed.

Lemma hit_active : forall v v', hit v v' -> inert v = false.
Proof.
  intros v v' H. induction H as [|o1 k w w' o2 H IH|a w w' b H IH].
  - destruct x_object as (o & -> & I). cbn [inert]. now rewrite (In_smem _ _ I).
  - destruct (inert (JObj (o1 ++ (k, w) :: o2))) eqn:E; [|reflexivity].
    assert (Q : inert w = true) by (apply (inert_fields _ E k); apply in_or_app; right; now left). congruence.
  - cbn [inert]. rewrite forallb_app. cbn [forallb]. rewrite IH. now rewrite andb_false_r.
Qed.

Lemma hit_inv : forall v v' ty, is_n v ty -> lean v = true -> hit v v' ->
  (v = x /\ v' = x') \/
  exists k w w', In k (part_keys ty) /\ fld v k w /\ fld v' k w' /\ hit w w' /\ lean w = true /\
    forall k', k' <> k -> oget v' k' = oget v k'.
Proof.
  intros v v' ty A L H. destruct H as [|o1 k w w' o2 H|a w w' b H]; [now left| |discriminate A]. right.
  pose proof (hit_active _ _ H) as NW.
  destruct (lean_obj _ k w L) as (I & Lw); [apply in_or_app; right; now left|exact NW|].
  set (v := JObj (o1 ++ (k, w) :: o2)) in *. set (v' := JObj (o1 ++ (k, w') :: o2)).
  assert (K : forall k', oget v' k' = oget v k' \/ (k' = k /\ oget v k' = Some w /\ oget v' k' = Some w')).
  { intros k'. unfold v, v', oget. destruct (assoc_mid o1 o2 k w w' k') as [E|E]; [left; now rewrite E|now right]. }
  assert (Ty : node_type (o1 ++ (k, w) :: o2) = ty).
  { unfold node_type. unfold is_n, fld, oget, v in A. now rewrite A. }
  assert (Sk : smem k (map fst o1) = false).
  { destruct (smem k (map fst o1)) eqn:Sk; [|reflexivity]. exfalso. apply lean_once in L.
    clear - L Sk. induction o1 as [|[k1 v1] o1 IH]; cbn [app map fst once smem] in *; [discriminate Sk|].
    apply andb_true_iff in L. destruct L as (L1 & L2). destruct (k =?s k1) eqn:Q; [|auto]. apply String.eqb_eq in Q. subst k1.
    rewrite map_app in L1. cbn [map fst] in L1. now rewrite smem_mid in L1. }
  assert (E : oget v k = Some w /\ oget v' k = Some w').
  { unfold v, v', oget. clear - Sk. induction o1 as [|[k1 v1] o1 IH]; cbn [app map fst assoc smem] in *; [now rewrite String.eqb_refl|].
    destruct (k =?s k1); [discriminate Sk|auto]. }
  destruct E as (E & E'). rewrite Ty in I. exists k, w, w'. unfold fld. repeat split; try assumption.
  intros k' N. destruct (K k') as [E2|(Q & _)]; [exact E2|congruence].
Qed.

(** ** What becomes of a part *)

Definition chain (t0 t0' t t' : thing) : Prop := edited (fun u w => u = t0 /\ w = t0') t t'.

(** The replaced node stands for a part [t0]; whatever [t0'] the new node stands
    for takes its place. *)
Definition out (t : thing) (v' : json) : Prop :=
  exists t0, any t0 x /\ forall t0', sort t0 t0' -> any t0' x' -> exists t', sort t t' /\ any t' v' /\ chain t0 t0' t t'.

Lemma out_here : forall t, any t x -> out t x'.
Proof. intros t H. exists t. split; [exact H|]. intros t0' S H'. exists t0'. split; [exact S|]. split; [exact H'|]. now constructor. Qed.

Lemma lift : forall A (inj : A -> thing) (T : A -> thing) a v' w',
  (forall a c, sort (inj a) c -> exists a', c = inj a') ->
  out (inj a) w' ->
  (forall a', any (inj a') w' -> any (T a') v') -> (forall a', step (inj a) (inj a') (T a) (T a')) -> (forall a', sort (T a) (T a')) ->
  out (T a) v'.
Proof.
  intros A inj T a v' w' Si (t0 & H0 & H) HT Hs So.
  exists t0. split; [exact H0|]. intros t0' S H1. destruct (H t0' S H1) as (c & Sc & Hc & E). destruct (Si a c Sc) as (a' & ->).
  exists (T a'). split; [apply So|]. split; [apply HT, Hc|]. exact (ed_inside _ _ _ _ _ (Hs a') E).
Qed.

(** The same when the thing is not written with its part. *)
Lemma lift2 : forall A (inj : A -> thing) (T : A -> thing) t a v' w',
  (forall a c, sort (inj a) c -> exists a', c = inj a') ->
  out (inj a) w' ->
  (forall a', any (inj a') w' -> any (T a') v') -> (forall a', step (inj a) (inj a') t (T a')) -> (forall a', sort t (T a')) ->
  out t v'.
Proof.
  intros A inj T t a v' w' Si (t0 & H0 & H) HT Hs So.
  exists t0. split; [exact H0|]. intros t0' S H1. destruct (H t0' S H1) as (c & Sc & Hc & E). destruct (Si a c Sc) as (a' & ->).
  exists (T a'). split; [apply So|]. split; [apply HT, Hc|]. exact (ed_inside _ _ _ _ _ (Hs a') E).
Qed.

Lemma hit_list : forall l w', hit (JArr l) w' -> lean (JArr l) = true ->
  exists a w w2 b, l = a ++ w :: b /\ w' = JArr (a ++ w2 :: b) /\ hit w w2 /\ lean w = true.
Proof.
  intros l w' H L. inversion H as [E1 E2| |a w w2 b H1]; subst.
  - destruct x_object as (o & Q & _). congruence.
  - exists a, w, w2, b. repeat split; [assumption|]. cbn [lean] in L. rewrite forallb_app in L. cbn [forallb] in L.
    apply andb_true_iff in L. destruct L as (_ & L). apply andb_true_iff in L. apply L.
Qed.

Lemma list_hit : forall A (R : A -> json -> Prop) es l w', Forall2 R es l -> hit (JArr l) w' -> lean (JArr l) = true ->
  exists eu e ev u w w2 b, es = eu ++ e :: ev /\ w' = JArr (u ++ w2 :: b) /\ Forall2 R eu u /\ R e w /\ Forall2 R ev b /\ hit w w2 /\ lean w = true.
Proof.
  intros A R es l w' F H L. destruct (hit_list l w' H L) as (u & w & w2 & b & -> & -> & Hw & Lw).
  destruct (Forall2_mid_inv _ _ R es u w b F) as (eu & e & ev & -> & F1 & F2 & F3). exists eu, e, ev, u, w, w2, b. repeat split; assumption.
Qed.

Lemma scalar_hit : forall w w', hit w w' -> inert w = true -> False.
Proof. intros w w' H I. apply hit_active in H. congruence. Qed.

Definition placed (e : sexp) : Prop := forall v v', xnode e v -> lean v = true -> hit v v' -> out (TE e) v'.

Ltac mv := match goal with
  | |- is_n _ _ => unfold is_n; mv
  | F : fld ?v ?k ?w |- fld ?v ?k _ => exact F
  | E : forall k', k' <> _ -> oget ?v' k' = oget _ k' |- fld ?v' ?k _ => unfold fld; rewrite (E k) by discriminate; eassumption
  | E : forall k', k' <> _ -> oget ?v' k' = oget _ k' |- gone ?v' ?k => unfold gone; rewrite (E k) by discriminate; eassumption
  | E : forall k', k' <> _ -> oget ?v' k' = oget _ k' |- flag ?v' ?k _ => unfold flag, fld, gone; rewrite (E k) by discriminate; eassumption
  | E : forall k', k' <> _ -> oget ?v' k' = oget _ k' |- default_text ?v' ?k _ _ => unfold default_text, fld; rewrite (E k) by discriminate; eassumption
  end.
Ltac child_ := eexists; split; [mv|eassumption].
Ltac rebuild := cbn [any xnode cnode mnode pnode]; repeat first [assumption | mv | child_ | match goal with |- _ /\ _ => split end].
Ltac use_field := match goal with
  | Hw : hit ?w _, F1 : fld ?v ?k ?w, F2 : fld ?v ?k ?a |- _ =>
      tryif constr_eq F1 F2 then fail else (let Q := fresh "Q" in assert (Q : w = a) by (unfold fld in F1, F2; congruence); clear F1; subst w)
  end.
Ltac begin_ A L Hi H0 := destruct (hit_inv _ _ _ A L Hi) as [(-> & ->)|(k & w & w' & I & Fw & Fw' & Hw & Lw & E)];
  [apply out_here; exact H0|cbn in I; repeat (destruct I as [<-|I]); [..|destruct I]].

Lemma gone_hit : forall v k w w', gone v k -> fld v k w -> hit w w' -> False.
Proof. intros v k w w' M F _. unfold gone, fld in *. congruence. Qed.


Ltac into inj T S IH := eapply (lift _ inj T); [exact S|refine (IH _ _ _ _ _); [eassumption|assumption|eassumption]| |constructor|now intros].

Lemma all_placed : forall e, placed e.
Proof.
  induction e as [y|s u|s|s|s|op a b IHa IHb|op a IHa|op a IHa|c a b IHc IHa IHb|op a b IHa IHb|f args IHf IHl|f args IHf IHl|f args IHf IHl
    |a y IHa|a i IHa IHi|a i j IHa IHi IHj|l IHl|l IHl|t IHt|t|y pay|y|k0 kn v0 vn IHk IHv|t len IHt IHlen|ps ext mu rs IHp IHr]
    using sexp_ind2; intros v v' H L Hi; pose proof H as H0; cbn [xnode] in H.
  - destruct H as ([A|A] & F); begin_ A L Hi H0.
  - destruct H as (A & _). begin_ A L Hi H0.
  - destruct H as (A & _). begin_ A L Hi H0.
  - destruct H as (A & _). begin_ A L Hi H0.
  - destruct H as (A & _). begin_ A L Hi H0.
  - destruct H as (A & O & F & (va & Fa & Na) & (vb & Fb & Nb)). begin_ A L Hi H0; use_field.
    + into TE (fun a => TE (XBin op a b)) sort_TE IHa. intros a' Na'. cbn [any] in Na'. rebuild.
    + into TE (fun b => TE (XBin op a b)) sort_TE IHb. intros a' Na'. cbn [any] in Na'. rebuild.
  - destruct H as (A & F & G & (va & Fa & Na)). begin_ A L Hi H0; use_field.
    into TE (fun a => TE (XPre op a)) sort_TE IHa. intros a' Na'. cbn [any] in Na'. rebuild.
  - destruct H as (A & F & G & (va & Fa & Na)). begin_ A L Hi H0; use_field.
    into TE (fun a => TE (XPost op a)) sort_TE IHa. intros a' Na'. cbn [any] in Na'. rebuild.
  - destruct H as (A & (vc & Fc & Nc) & (va & Fa & Na) & (vb & Fb & Nb)). begin_ A L Hi H0; use_field.
    + into TE (fun c => TE (XCond c a b)) sort_TE IHc. intros a' Na'. cbn [any] in Na'. rebuild.
    + into TE (fun a => TE (XCond c a b)) sort_TE IHa. intros a' Na'. cbn [any] in Na'. rebuild.
    + into TE (fun b => TE (XCond c a b)) sort_TE IHb. intros a' Na'. cbn [any] in Na'. rebuild.
  - destruct H as (A & F & (va & Fa & Na) & (vb & Fb & Nb)). begin_ A L Hi H0; use_field.
    + into TE (fun a => TE (XAssign op a b)) sort_TE IHa. intros a' Na'. cbn [any] in Na'. rebuild.
    + into TE (fun b => TE (XAssign op a b)) sort_TE IHb. intros a' Na'. cbn [any] in Na'. rebuild.
  - destruct H as (A & (vf & Ff & Nf) & (l & Fl & Nl) & F1 & F2). begin_ A L Hi H0; use_field.
    + into TE (fun f => TE (XCall f args)) sort_TE IHf. intros a' Na'. cbn [any] in Na'. rebuild.
    + apply xelements_Forall2 in Nl. destruct (list_hit _ _ _ _ _ Nl Hw Lw) as (eu & e & ev & u & w & w2 & b & -> & -> & G1 & G2 & G3 & Hw2 & Lw2).
      eapply (lift _ TE (fun e => TE (XCall f (eu ++ e :: ev)))); [exact sort_TE|exact (Forall_mid _ _ _ _ _ IHl _ _ G2 Lw2 Hw2)| |constructor|now intros].
      intros a' Na'. cbn [any] in *. rebuild. eexists. split; [mv|]. now apply xelements_of, Forall2_mid.
  - destruct H as (A & (vf & Ff & Nf) & Ne & F2 & ks & vs & Fk & Fl & Nl). apply named_nodes in Nl. destruct Nl as (-> & Nl). begin_ A L Hi H0; use_field.
    + into TE (fun f => TE (XNamed f args)) sort_TE IHf. intros a' Na'. cbn [any] in Na'. rebuild. eexists _, _. split; [mv|]. split; [mv|]. now apply named_nodes.
    + destruct (list_hit _ _ _ _ _ Nl Hw Lw) as (eu & [y e] & ev & u & w & w2 & b & -> & -> & G1 & G2 & G3 & Hw2 & Lw2).
      eapply (lift _ TE (fun e => TE (XNamed f (eu ++ (y, e) :: ev)))); [exact sort_TE|exact (Forall_mid _ _ _ _ _ IHl _ _ G2 Lw2 Hw2)| |constructor|now intros].
      intros a' Na'. cbn [any] in *. rebuild; [destruct eu; discriminate|]. eexists _, _. split; [mv|]. split; [mv|]. apply named_nodes. split; [now rewrite !map_app|].
      now apply Forall2_mid.
  - destruct H as (A & (vf & Ff & Nf) & ks & vs & Fk & Fl & Nl). apply named_nodes in Nl. destruct Nl as (-> & Nl). begin_ A L Hi H0; use_field.
    + into TE (fun f => TE (XOpts f args)) sort_TE IHf. intros a' Na'. cbn [any] in Na'. rebuild. eexists _, _. split; [mv|]. split; [mv|]. now apply named_nodes.
    + destruct (list_hit _ _ _ _ _ Nl Hw Lw) as (eu & [y e] & ev & u & w & w2 & b & -> & -> & G1 & G2 & G3 & Hw2 & Lw2).
      eapply (lift _ TE (fun e => TE (XOpts f (eu ++ (y, e) :: ev)))); [exact sort_TE|exact (Forall_mid _ _ _ _ _ IHl _ _ G2 Lw2 Hw2)| |constructor|now intros].
      intros a' Na'. cbn [any] in *. rebuild. eexists _, _. split; [mv|]. split; [mv|]. apply named_nodes. split; [now rewrite !map_app|].
      now apply Forall2_mid.
  - destruct H as (A & (va & Fa & Na) & F). begin_ A L Hi H0; use_field.
    into TE (fun a => TE (XMember a y)) sort_TE IHa. intros a' Na'. cbn [any] in Na'. rebuild.
  - destruct H as (A & (va & Fa & Na) & F). begin_ A L Hi H0.
    + use_field. into TE (fun a => TE (XIndex a i)) sort_TE IHa. intros a' Na'. cbn [any] in Na'. rebuild. destruct i; [|mv]. destruct F as (vi & Fi & Ni). rebuild.
    + destruct i as [i|]; [|destruct (gone_hit _ _ _ _ F Fw Hw)]. destruct F as (vi & Fi & Ni). use_field.
      into TE (fun i => TE (XIndex a (Some i))) sort_TE IHi. intros a' Na'. cbn [any] in Na'. rebuild.
  - destruct H as (A & (va & Fa & Na) & F & G).
    assert (M : forall (o : option sexp) q n, match o with Some e => exists u, fld v q u /\ xnode e u | None => gone v q end -> oget n q = oget v q ->
      match o with Some e => exists u, fld n q u /\ xnode e u | None => gone n q end).
    { intros o q n M Q. unfold fld, gone in *. rewrite Q. exact M. }
    begin_ A L Hi H0.
    + use_field. into TE (fun a => TE (XSlice a i j)) sort_TE IHa. intros a' Na'. cbn [any] in Na'. rebuild; (apply M; [assumption|apply E; discriminate]).
    + destruct i as [i|]; [|destruct (gone_hit _ _ _ _ F Fw Hw)]. destruct F as (vi & Fi & Ni). use_field.
      into TE (fun i => TE (XSlice a (Some i) j)) sort_TE IHi. intros a' Na'. cbn [any] in Na'. rebuild; apply M; [assumption|apply E; discriminate].
    + destruct j as [j|]; [|destruct (gone_hit _ _ _ _ G Fw Hw)]. destruct G as (vi & Fi & Ni). use_field.
      into TE (fun j => TE (XSlice a i (Some j))) sort_TE IHj. intros a' Na'. cbn [any] in Na'. rebuild; apply M; [assumption|apply E; discriminate].
  - destruct H as (A & F & ns & Fl & Nl). apply tuple_nodes in Nl. begin_ A L Hi H0; use_field.
    destruct (list_hit _ _ _ _ _ Nl Hw Lw) as (eu & [e|] & ev & u & w & w2 & b & -> & -> & G1 & G2 & G3 & Hw2 & Lw2).
    + eapply (lift _ TE (fun e => TE (XTuple (eu ++ Some e :: ev)))); [exact sort_TE|exact (Forall_mid _ _ _ _ _ IHl _ _ G2 Lw2 Hw2)| |constructor|now intros].
      intros a' Na'. cbn [any] in *. rebuild. eexists. split; [mv|]. apply tuple_nodes. now apply Forall2_mid.
    + cbn [hole_node] in G2. subst w. destruct (scalar_hit _ _ Hw2 eq_refl).
  - destruct H as (A & F & (l1 & Fl & Nl)). begin_ A L Hi H0; use_field.
    apply xelements_Forall2 in Nl. destruct (list_hit _ _ _ _ _ Nl Hw Lw) as (eu & e & ev & u & w & w2 & b & -> & -> & G1 & G2 & G3 & Hw2 & Lw2).
    eapply (lift _ TE (fun e => TE (XArray (eu ++ e :: ev)))); [exact sort_TE|exact (Forall_mid _ _ _ _ _ IHl _ _ G2 Lw2 Hw2)| |constructor|now intros].
    intros a' Na'. cbn [any] in *. rebuild. eexists. split; [mv|]. now apply xelements_of, Forall2_mid.
  - destruct H as (A & (va & Fa & Na)). begin_ A L Hi H0; use_field.
    into TE (fun a => TE (XNew a)) sort_TE IHt. intros a' Na'. cbn [any] in Na'. rebuild.
  - destruct H as (A & _). begin_ A L Hi H0.
  - destruct H as (A & _). begin_ A L Hi H0.
  - destruct H as (A & _). begin_ A L Hi H0.
  - destruct H as (A & (va & Fa & Na) & (vb & Fb & Nb) & F & G).
    assert (M : forall q s n, fld v q (JStr s) \/ (s = "" /\ gone v q) -> oget n q = oget v q -> fld n q (JStr s) \/ (s = "" /\ gone n q)).
    { intros q s n M Q. unfold fld, gone in *. rewrite Q. exact M. }
    begin_ A L Hi H0; use_field.
    + into TE (fun k0 => TE (TMap k0 kn v0 vn)) sort_TE IHk. intros a' Na'. cbn [any] in Na'. rebuild; (apply M; [assumption|apply E; discriminate]).
    + into TE (fun v0 => TE (TMap k0 kn v0 vn)) sort_TE IHv. intros a' Na'. cbn [any] in Na'. rebuild; (apply M; [assumption|apply E; discriminate]).
  - destruct H as (A & (va & Fa & Na) & F). begin_ A L Hi H0.
    + use_field. into TE (fun a => TE (TArr a len)) sort_TE IHt. intros a' Na'. cbn [any] in Na'. rebuild. destruct len; [|mv]. destruct F as (vi & Fi & Ni). rebuild.
    + destruct len as [i|]; [|destruct (gone_hit _ _ _ _ F Fw Hw)]. destruct F as (vi & Fi & Ni). use_field.
      into TE (fun i => TE (TArr t (Some i))) sort_TE IHlen. intros a' Na'. cbn [any] in Na'. rebuild.
  - destruct H as (A & _). begin_ A L Hi H0.
Qed.

(** ** Declarations, statements *)

Lemma inactive : forall ty, is_n x ty -> ~ In ty active -> False.
Proof. intros ty A N. destruct Tx as (ty2 & B & I). unfold is_n, fld in *. rewrite A in B. injection B as ->. auto. Qed.
Ltac not_active A := exfalso; apply (inactive _ A); cbn; intuition discriminate.

Lemma keep_maybe : forall A (R : A -> json -> Prop) o n n' k, xmaybe R o n k -> oget n' k = oget n k -> xmaybe R o n' k.
Proof. intros A R o n n' k H E. unfold xmaybe, fld, gone in *. now rewrite E. Qed.
Lemma keep_override : forall o n n', override_node o n -> oget n' "overrides" = oget n "overrides" -> override_node o n'.
Proof. intros o n n' H E. unfold override_node, fld, gone in *. now rewrite E. Qed.

Ltac mv2 := first [mv | match goal with
  | E : forall k', k' <> _ -> oget ?v' k' = oget _ k', M : xmaybe ?R ?o ?v ?k |- xmaybe ?R ?o ?v' ?k => exact (keep_maybe _ R o v v' k M (E k ltac:(discriminate)))
  | E : forall k', k' <> _ -> oget ?v' k' = oget _ k', M : override_node ?o ?v |- override_node ?o ?v' => exact (keep_override o v v' M (E "overrides" ltac:(discriminate)))
  end].
Ltac child2 := eexists; split; [mv2|eassumption].
Ltac rebuild2 := repeat first [assumption | mv2 | child2 | match goal with |- _ /\ _ => split end].

Lemma var_placed : forall d v v', var_node d v -> lean v = true -> hit v v' -> out (TV d) v'.
Proof.
  intros d v v' H L Hi. pose proof H as H0. destruct H as (A & D & (vt & Ft & Nt) & V & C & I0 & O & M & Lo & N & Va). begin_ A L Hi H0.
  - use_field. eapply (lift2 _ TE (fun t => TV (with_type d t))); [exact sort_TE|exact (all_placed _ _ _ Nt Lw Hw)| |constructor|now intros].
    intros a' Na'. cbn [any with_type] in *. unfold var_node. cbn. rebuild2.
  - destruct (sv_value d) as [e|] eqn:Ev; [|destruct (gone_hit _ _ _ _ Va Fw Hw)]. destruct Va as (ve & Fe & Ne). use_field.
    eapply (lift2 _ TE (fun t => TV (with_value d t))); [exact sort_TE|exact (all_placed _ _ _ Ne Lw Hw)| |intros; now apply st_var_value|now intros].
    intros a' Na'. cbn [any] in *. unfold var_node. cbn. rebuild2.
Qed.

Lemma params_out : forall (T : list svar -> thing) l v v' n', params_node l v -> lean v = true -> hit v v' ->
  (forall l', params_node l' v' -> any (T l') n') ->
  (forall u d d' b, l = u ++ d :: b -> step (TV d) (TV d') (T l) (T (u ++ d' :: b))) -> (forall l l', sort (T l) (T l')) -> out (T l) n'.
Proof.
  intros T l v v' n' (A & ns & F & Ns) L Hi B Hs So.
  destruct (hit_inv _ _ _ A L Hi) as [(-> & ->)|(k & w & w' & I & Fw & Fw' & Hw & Lw & E)]; [not_active A|]. destruct I as [<-|[]].
  use_field. destruct (list_hit _ _ _ _ _ Ns Hw Lw) as (eu & d & ev & u & w & w2 & b & -> & -> & G1 & G2 & G3 & Hw2 & Lw2).
  eapply (lift2 _ TV (fun d => T (eu ++ d :: ev))); [exact sort_TV|exact (var_placed _ _ _ G2 Lw2 Hw2)| |intros; now apply Hs|intros; apply So].
  intros a' Na'. apply B. split; [mv|]. eexists. split; [mv|]. now apply Forall2_mid.
Qed.

Lemma calls_out : forall (T : list (sexp * option (list sexp)) -> thing) ty name l ns v' n',
  Forall2 (arguments_node ty name) l ns -> lean (JArr ns) = true -> hit (JArr ns) v' -> ~ In ty active -> part_keys ty = ["arguments"] -> name <> "arguments" ->
  (forall l' ns', v' = JArr ns' -> Forall2 (arguments_node ty name) l' ns' -> any (T l') n') ->
  (forall u m a e e' b c, l = u ++ (m, Some (a ++ e :: b)) :: c -> step (TE e) (TE e') (T l) (T (u ++ (m, Some (a ++ e' :: b)) :: c))) ->
  (forall l l', sort (T l) (T l')) -> out (T l) n'.
Proof.
  intros T ty name l ns v' n' Ns L Hi NA PK NN B Hs So.
  destruct (list_hit _ _ _ _ _ Ns Hi L) as (eu & [m o] & ev & u & w & w2 & b & -> & -> & G1 & (A & (vm & Fm & Nm) & Ar) & G3 & Hw2 & Lw2).
  destruct (hit_inv _ _ _ A Lw2 Hw2) as [(-> & ->)|(k & w0 & w' & I & Fw & Fw' & Hw & Lw & E)]; [exfalso; exact (inactive _ A NA)|].
  rewrite PK in I. destruct I as [<-|[]]. destruct o as [es|]; cbn [snd fst] in *; [|destruct (gone_hit _ _ _ _ Ar Fw Hw)]. destruct Ar as (la & Fa & Na). use_field.
  destruct (list_hit _ _ _ _ _ Na Hw Lw) as (ea & e & eb & ua & w3 & w4 & ub & -> & -> & K1 & K2 & K3 & Hw4 & Lw4).
  eapply (lift2 _ TE (fun e => T (eu ++ (m, Some (ea ++ e :: eb)) :: ev))); [exact sort_TE|exact (all_placed _ _ _ K2 Lw4 Hw4)| |intros; now apply Hs|intros; apply So].
  intros a' Na'. eapply B; [reflexivity|]. apply Forall2_mid; [assumption| |assumption]. split; [|split].
  - unfold is_n, fld. rewrite E by (intros Q; discriminate Q). exact A.
  - exists vm. split; [|exact Nm]. unfold fld. rewrite E by exact NN. exact Fm.
  - eexists. split; [exact Fw'|]. now apply Forall2_mid.
Qed.

Definition cplaced (s : sstmt) : Prop := forall v v', cnode s v -> lean v = true -> hit v v' -> out (TS s) v'.

Ltac expr inj := eapply (lift _ TE inj); [exact sort_TE|refine (all_placed _ _ _ _ _ _); [eassumption|assumption|eassumption]| |constructor|now intros].
Ltac stmt inj IH := eapply (lift _ TS inj); [exact sort_TS|refine (IH _ _ _ _ _); [eassumption|assumption|eassumption]| |constructor|now intros].
Ltac done := intros a' Na'; cbn [any cnode xmaybe] in *; rebuild2.

Lemma all_cplaced : forall s, cplaced s.
Proof.
  induction s as [e|l e|c l IHl|e a b IHa IHb|e s IHs|s e IHs|i e l s IHi IHs|e|e|e|w0|e rs s cs IHs IHc] using sstmt_ind'; intros v v' H L Hi; pose proof H as H0; cbn [cnode] in H.
  - destruct H as (A & (ve & Fe & Ne)). begin_ A L Hi H0; use_field. expr (fun e => TS (CExp e)). done.
  - destruct H as (A & (ns & Fl & Nl) & M). begin_ A L Hi H0.
    + use_field. destruct (list_hit _ _ _ _ _ Nl Hw Lw) as (eu & [d|] & ev & u & w & w2 & b & -> & -> & G1 & G2 & G3 & Hw2 & Lw2).
      * eapply (lift _ TV (fun d => TS (CVar (eu ++ Some d :: ev) e))); [exact sort_TV|exact (var_placed _ _ _ G2 Lw2 Hw2)| |constructor|now intros].
        intros a' Na'. cbn [any cnode] in *. rebuild2. eexists. split; [mv|]. now apply Forall2_mid.
      * cbn [hole_node] in G2. subst w. destruct (scalar_hit _ _ Hw2 eq_refl).
    + destruct e as [e|]; cbn [xmaybe] in M; [|destruct (gone_hit _ _ _ _ M Fw Hw)]. destruct M as (ve & Fe & Ne). use_field. expr (fun e => TS (CVar l (Some e))). done.
  - destruct H as (A & ns & Fl & Nl). apply block_nodes in Nl.
    assert (G : out (TS (CBlock c l)) v').
    { destruct (hit_inv _ _ _ A L Hi) as [(-> & ->)|(k & w & w' & I & Fw & Fw' & Hw & Lw & E)]; [apply out_here; exact H0|].
      assert (k = "statements") by (destruct c; cbn in I; destruct I as [<-|[]]; reflexivity). subst k. use_field.
      destruct (list_hit _ _ _ _ _ Nl Hw Lw) as (eu & s & ev & u & w & w2 & b & -> & -> & G1 & G2 & G3 & Hw2 & Lw2).
      eapply (lift _ TS (fun s => TS (CBlock c (eu ++ s :: ev)))); [exact sort_TS|exact (Forall_mid _ _ _ _ _ IHl _ _ G2 Lw2 Hw2)| |constructor|now intros].
      intros a' Na'. cbn [any] in *. cbn [cnode]. split; [mv|]. eexists. split; [mv|]. apply block_nodes. now apply Forall2_mid. }
    exact G.
  - destruct H as (A & (vc & Fc & Nc) & (va & Fa & Na) & M). change (xmaybe cnode b v "falseBody") in M. begin_ A L Hi H0.
    + use_field. expr (fun e => TS (CIf e a b)). done. exact (keep_maybe _ cnode b _ _ _ M (E "falseBody" ltac:(discriminate))).
    + use_field. stmt (fun a => TS (CIf e a b)) IHa. done. exact (keep_maybe _ cnode b _ _ _ M (E "falseBody" ltac:(discriminate))).
    + destruct b as [b|]; cbn [xmaybe] in M; [|destruct (gone_hit _ _ _ _ M Fw Hw)]. destruct M as (vb & Fb & Nb). use_field.
      stmt (fun b => TS (CIf e a (Some b))) IHb. done.
  - destruct H as (A & (vc & Fc & Nc) & (va & Fa & Na)). begin_ A L Hi H0; use_field.
    + expr (fun e => TS (CWhile e s)). done.
    + stmt (fun s => TS (CWhile e s)) IHs. done.
  - destruct H as (A & (vc & Fc & Nc) & (va & Fa & Na)). begin_ A L Hi H0; use_field.
    + expr (fun e => TS (CDo s e)). done.
    + stmt (fun s => TS (CDo s e)) IHs. done.
  - destruct H as (A & Mi & Me & Ml & (va & Fa & Na)). change (xmaybe cnode i v "initializationExpression") in Mi.
    assert (KL : forall n, oget n "loopExpression" = oget v "loopExpression" -> match l with
      | Some e => exists v x, fld n "loopExpression" v /\ is_n v "ExpressionStatement" /\ fld v "expression" x /\ xnode e x
      | None => gone n "loopExpression" end).
    { intros n E. unfold fld at 1, gone. rewrite E. exact Ml. }
    begin_ A L Hi H0.
    + destruct i as [i|]; cbn [xmaybe] in Mi; [|destruct (gone_hit _ _ _ _ Mi Fw Hw)]. destruct Mi as (vb & Fb & Nb). use_field.
      stmt (fun b => TS (CFor (Some b) e l s)) IHi. done. apply KL, E. discriminate.
    + destruct e as [e|]; cbn [xmaybe] in Me; [|destruct (gone_hit _ _ _ _ Me Fw Hw)]. destruct Me as (vb & Fb & Nb). use_field.
      expr (fun e => TS (CFor i (Some e) l s)). done; [exact (keep_maybe _ cnode i _ _ _ Mi (E "initializationExpression" ltac:(discriminate)))|apply KL, E; discriminate].
    + destruct l as [e2|]; [|destruct (gone_hit _ _ _ _ Ml Fw Hw)]. destruct Ml as (vl & xl & Fv & Al & Fx & Nx). use_field.
      destruct (hit_inv _ _ _ Al Lw Hw) as [(-> & ->)|(k & w1 & w1' & I & Fw1 & Fw1' & Hw1 & Lw1 & E1)]; [not_active Al|]. destruct I as [<-|[]].
      assert (w1 = xl) by (unfold fld in Fw1, Fx; congruence). subst w1.
      eapply (lift _ TE (fun e2 => TS (CFor i e (Some e2) s))); [exact sort_TE|exact (all_placed _ _ _ Nx Lw1 Hw1)| |constructor|now intros].
      done; [exact (keep_maybe _ cnode i _ _ _ Mi (E "initializationExpression" ltac:(discriminate)))|].
      eexists _, _. split; [exact Fw'|]. split; [|split; [exact Fw1'|assumption]]. unfold is_n, fld. rewrite E1 by discriminate. exact Al.
    + use_field. stmt (fun b => TS (CFor i e l b)) IHs. done; [exact (keep_maybe _ cnode i _ _ _ Mi (E "initializationExpression" ltac:(discriminate)))|apply KL, E; discriminate].
  - destruct H as (A & M). begin_ A L Hi H0. destruct e as [e|]; cbn [xmaybe] in M; [|destruct (gone_hit _ _ _ _ M Fw Hw)].
    destruct M as (ve & Fe & Ne). use_field. expr (fun e => TS (CReturn (Some e))). done.
  - destruct H as (A & (ve & Fe & Ne)). begin_ A L Hi H0; use_field. expr (fun e => TS (CEmit e)). done.
  - destruct H as (A & (ve & Fe & Ne)). begin_ A L Hi H0; use_field. expr (fun e => TS (CRevert e)). done.
  - destruct H as (ty & I & A). destruct (hit_inv _ _ _ A L Hi) as [(-> & ->)|(k & w & w' & J & _)]; [apply out_here; exact H0|].
    cbn in I. repeat (destruct I as [I|I]; [injection I as <- <-; destruct J|]). destruct I.
  - destruct H as (A & _). begin_ A L Hi H0.
Qed.

(** ** Members, pieces of the file, the file *)

Lemma sorted_TM : forall m m', sort (TM m) (TM m'). Proof. now intros. Qed.

Lemma member_placed : forall m v v', mnode m v -> lean v = true -> hit v v' -> out (TM m) v'.
Proof.
  intros m v v' H L Hi. pose proof H as H0. destruct m as [d|f|f ps vi o b|f ps an|f ps|f l|f l|f t|lib t g|l t g]; cbn [mnode] in H.
  - eapply (lift _ TV (fun d => TM (MVar d))); [exact sort_TV|exact (var_placed _ _ _ H L Hi)| |constructor|now intros]. intros a' Na'. exact Na'.
  - destruct H as (A & D & K & N & (vp & Fp & Np) & V & Vi & M & O & (nm & Fm & Nm) & (vr & Fr & Nr) & Im & B).
    assert (KV : forall n, oget n "visibility" = oget v "visibility" -> if sf_visibility f =?s "" then gone n "visibility" \/ (sf_kind f = "freeFunction" /\ fld n "visibility" (JStr "internal"))
      else fld n "visibility" (JStr (sf_visibility f))) by (intros n E; unfold gone, fld; rewrite E; exact V).
    begin_ A L Hi H0.
    + use_field. replace (TM (MFun f)) with ((fun l => TM (MFun (with_params f l))) (sf_params f)) by (destruct f; reflexivity).
      apply (params_out (fun l => TM (MFun (with_params f l))) _ _ _ _ Np Lw Hw); [| |now intros].
      * intros l' Nl'. cbn [any mnode with_params]. unfold fun_node. cbn. rebuild2. apply KV, E. discriminate.
      * intros u d d' b Q. replace (with_params f (sf_params f)) with f by (destruct f; reflexivity). now constructor.
    + use_field. replace (TM (MFun f)) with ((fun l => TM (MFun (with_modifiers f l))) (sf_modifiers f)) by (destruct f; reflexivity).
      apply (calls_out (fun l => TM (MFun (with_modifiers f l))) _ _ _ _ _ _ Nm Lw Hw); [cbn; intuition discriminate|reflexivity|discriminate| | |now intros].
      * intros l' ns' -> Nl'. cbn [any mnode]. unfold fun_node. cbn. rebuild2. apply KV, E. discriminate.
      * intros u m a e e' b c Q. replace (with_modifiers f (sf_modifiers f)) with f by (destruct f; reflexivity). now constructor.
    + use_field. replace (TM (MFun f)) with ((fun l => TM (MFun (with_returns f l))) (sf_returns f)) by (destruct f; reflexivity).
      apply (params_out (fun l => TM (MFun (with_returns f l))) _ _ _ _ Nr Lw Hw); [| |now intros].
      * intros l' Nl'. cbn [any mnode]. unfold fun_node. cbn. rebuild2. apply KV, E. discriminate.
      * intros u d d' b Q. replace (with_returns f (sf_returns f)) with f by (destruct f; reflexivity). now constructor.
    + destruct (sf_body f) as [s|] eqn:Eb; cbn [xmaybe] in B; [|destruct (gone_hit _ _ _ _ B Fw Hw)]. destruct B as (vb & Fb & Nb). use_field.
      eapply (lift2 _ TS (fun s => TM (MFun (with_body f s)))); [exact sort_TS|exact (all_cplaced _ _ _ Nb Lw Hw)| |intros; now apply st_fun_body|now intros].
      intros a' Na'. cbn [any mnode] in *. unfold fun_node. cbn. rebuild2. apply KV, E. discriminate.
  - destruct H as (A & D & N & (vp & Fp & Np) & Vi & O & B). begin_ A L Hi H0.
    + use_field. apply (params_out (fun l => TM (MModifier f l vi o b)) _ _ _ _ Np Lw Hw); [| |now intros].
      * intros l' Nl'. cbn [any mnode]. rebuild2.
      * intros u d d' b0 ->. constructor.
    + destruct b as [s|]; cbn [xmaybe] in B; [|destruct (gone_hit _ _ _ _ B Fw Hw)]. destruct B as (vb & Fb & Nb). use_field.
      eapply (lift _ TS (fun s => TM (MModifier f ps vi o (Some s)))); [exact sort_TS|exact (all_cplaced _ _ _ Nb Lw Hw)| |constructor|now intros].
      intros a' Na'. cbn [any mnode xmaybe] in *. rebuild2.
  - destruct H as (A & N & (vp & Fp & Np) & An). begin_ A L Hi H0. use_field. apply (params_out (fun l => TM (MEvent f l an)) _ _ _ _ Np Lw Hw); [| |now intros].
    + intros l' Nl'. cbn [any mnode]. rebuild2.
    + intros u d d' b0 ->. constructor.
  - destruct H as (A & N & (vp & Fp & Np)). begin_ A L Hi H0. use_field. apply (params_out (fun l => TM (MError f l)) _ _ _ _ Np Lw Hw); [| |now intros].
    + intros l' Nl'. cbn [any mnode]. rebuild2.
    + intros u d d' b0 ->. constructor.
  - destruct H as (A & N & ns & Fl & Nl). begin_ A L Hi H0. use_field.
    destruct (list_hit _ _ _ _ _ Nl Hw Lw) as (eu & d & ev & u & w & w2 & b & -> & -> & G1 & G2 & G3 & Hw2 & Lw2).
    eapply (lift _ TV (fun d => TM (MStruct f (eu ++ d :: ev)))); [exact sort_TV|exact (var_placed _ _ _ G2 Lw2 Hw2)| |constructor|now intros].
    intros a' Na'. cbn [any mnode] in *. rebuild2. eexists. split; [mv|]. now apply Forall2_mid.
  - destruct H as (A & _). begin_ A L Hi H0.
  - destruct H as (A & _). begin_ A L Hi H0.
  - destruct H as ((A & M & G) & Gf & (vl & Fl & Nl)). begin_ A L Hi H0. destruct t as [t|]; cbn [xmaybe] in M; [|destruct (gone_hit _ _ _ _ M Fw Hw)].
    destruct M as (ve & Fe & Ne). use_field. eapply (lift _ TE (fun e => TM (MUsing lib (Some e) g))); [exact sort_TE|exact (all_placed _ _ _ Ne Lw Hw)| |constructor|now intros].
    intros a' Na'. cbn [any mnode] in *. unfold using_node. cbn [xmaybe]. rebuild2.
  - destruct H as ((A & M & G) & Gf & (vl & Fl & Nl)). begin_ A L Hi H0. destruct t as [t|]; cbn [xmaybe] in M; [|destruct (gone_hit _ _ _ _ M Fw Hw)].
    destruct M as (ve & Fe & Ne). use_field. eapply (lift _ TE (fun e => TM (MUsingFuns l (Some e) g))); [exact sort_TE|exact (all_placed _ _ _ Ne Lw Hw)| |constructor|now intros].
    intros a' Na'. cbn [any mnode] in *. unfold using_node. cbn [xmaybe]. rebuild2.
Qed.

Lemma piece_placed : forall p v v', pnode p v -> lean v = true -> hit v v' -> out (TP p) v'.
Proof.
  intros p v v' H L Hi. pose proof H as H0. destruct p as [w0 y|l|file names al|ab kind f bases l|m]; cbn [pnode] in H.
  - destruct H as (A & _). begin_ A L Hi H0.
  - destruct H as (A & _). begin_ A L Hi H0.
  - destruct H as (A & _). begin_ A L Hi H0.
  - destruct H as (A & D & Ab & K & N & (nb & Fb & Nb) & (nl & Fl & Nl)). begin_ A L Hi H0; use_field.
    + apply (calls_out (fun l0 => TP (PContract ab kind f l0 l)) _ _ _ _ _ _ Nb Lw Hw); [cbn; intuition discriminate|reflexivity|discriminate| | |now intros].
      * intros l' ns' -> Nl'. cbn [any pnode]. rebuild2.
      * intros u m a e e' b c ->. constructor.
    + destruct (list_hit _ _ _ _ _ Nl Hw Lw) as (eu & d & ev & u & w & w2 & b & -> & -> & G1 & G2 & G3 & Hw2 & Lw2).
      eapply (lift _ TM (fun d => TP (PContract ab kind f bases (eu ++ d :: ev)))); [exact sort_TM|exact (member_placed _ _ _ G2 Lw2 Hw2)| |constructor|now intros].
      intros a' Na'. cbn [any pnode] in *. rebuild2. eexists. split; [mv|]. now apply Forall2_mid.
  - eapply (lift _ TM (fun d => TP (PMember d))); [exact sort_TM|exact (member_placed _ _ _ H L Hi)| |constructor|now intros]. intros a' Na'. exact Na'.
Qed.

Lemma unit_placed : forall l v v', unit_node license l v -> lean v = true -> hit v v' -> out (TU l) v'.
Proof.
  intros l v v' H L Hi. pose proof H as H0. destruct H as (A & Li & ns & Fl & Nl). begin_ A L Hi H0. use_field.
  destruct (list_hit _ _ _ _ _ Nl Hw Lw) as (eu & d & ev & u & w & w2 & b & -> & -> & G1 & G2 & G3 & Hw2 & Lw2).
  eapply (lift _ TP (fun d => TU (eu ++ d :: ev))); [exact sort_TP|exact (piece_placed _ _ _ G2 Lw2 Hw2)| |constructor|now intros].
  intros a' Na'. cbn [any] in *. unfold unit_node. rebuild2. eexists. split; [mv|]. now apply Forall2_mid.
Qed.
End Hit.

(** In a lean tree of a program the replaced node stands for a part of it. *)
Lemma replaced_part : forall l v v' x x', unit_node license l v -> lean v = true -> (exists ty, is_n x ty /\ In ty active) -> hit x x' v v' ->
  exists t0, any t0 x /\ forall t0', sort t0 t0' -> any t0' x' -> exists l', unit_node license l' v' /\ chain t0 t0' (TU l) (TU l').
Proof.
  intros l v v' x x' U L Tx Hi. destruct (unit_placed x x' Tx l v v' U L Hi) as (t0 & H0 & H). exists t0. split; [exact H0|].
  intros t0' So H1. destruct (H t0' So H1) as (t' & S' & H2 & Ch). destruct t' as [| | | | |l']; try (exact (False_ind _ S')). exists l'. auto.
Qed.
End Place.
