(** One node of the tree of a Vyper program replaced: which part of the program
    that is. *)
From Coq Require Import String Ascii List NArith ZArith Bool Lia.
From Verif Require Import Base Json JsonFacts SpecTree SpecMutation SpecLiteral SpecVyText SpecVyEdit VyText VyTextStmt LocalFacts.
Import ListNotations.
Open Scope string_scope.
Open Scope list_scope.

(** Types of the nodes that are replaced. *)
Definition targets : list string :=
  ["BinOp"; "BoolOp"; "Compare"; "UnaryOp"; "Assign"; "FunctionDef"; "For"; "If"; "Module"; "Call"; "Int"].

Definition any (t : thing) (v : json) : Prop :=
  match t with
  | TE e => vnode e v
  | TS s => csnode s v
  | TD d => cdnode d v /\ no_interface d
  | TP l => cprogram_node l v /\ Forall no_interface l
  end.

Definition sort (t t' : thing) : Prop :=
  match t, t' with TE _, TE _ | TS _, TS _ | TD _, TD _ | TP _, TP _ => True | _, _ => False end.

Lemma sort_TE : forall e t, sort (TE e) t -> exists e', t = TE e'.
Proof. intros e [e'| | |] H; try destruct H. eauto. Qed.
Lemma sort_TS : forall e t, sort (TS e) t -> exists e', t = TS e'.
Proof. intros e [|e'| |] H; try destruct H. eauto. Qed.
Lemma sort_TD : forall e t, sort (TD e) t -> exists e', t = TD e'.
Proof. intros e [| |e'|] H; try destruct H. eauto. Qed.

(** ** Lists *)

Lemma Forall2_mid_inv : forall A B (R : A -> B -> Prop) es u w v, Forall2 R es (u ++ w :: v) ->
  exists eu e ev, es = eu ++ e :: ev /\ Forall2 R eu u /\ R e w /\ Forall2 R ev v.
Proof.
  intros A B R es u w v F. apply Forall2_app_inv_r in F. destruct F as (eu & r & F1 & F2 & ->). inversion F2 as [|e ? ev ? H F3]; subst.
  exists eu, e, ev. auto.
Qed.

Lemma Forall2_mid : forall A B (R : A -> B -> Prop) eu e ev u w v, Forall2 R eu u -> R e w -> Forall2 R ev v -> Forall2 R (eu ++ e :: ev) (u ++ w :: v).
Proof. intros. apply Forall2_app; [assumption|constructor; assumption]. Qed.

Lemma elements_of : forall R es ns, Forall2 R es ns -> elements R es ns.
Proof. intros R es ns F. induction F; cbn [elements]; auto. Qed.

Lemma Forall_mid : forall A (P : A -> Prop) u w v, Forall P (u ++ w :: v) -> P w.
Proof. intros A P u w v F. rewrite Forall_forall in F. apply F. apply in_or_app. right. now left. Qed.

(** ** Objects *)

Lemma lean_obj : forall o k w, lean (JObj o) = true -> In (k, w) o -> without_objects w = false ->
  In k (part_keys (ast_type o)) /\ lean w = true.
Proof.
  intros o k w L I W. cbn [lean] in L. apply andb_true_iff in L. destruct L as (_ & L).
  set (ty := ast_type o) in *. clearbody ty. induction o as [|[k1 v1] o IH]; [destruct I|].
  apply andb_true_iff in L. destruct L as (L1 & L2). destruct I as [I|I]; [|exact (IH L2 I)].
  injection I as -> ->. rewrite W in L1. cbn [orb] in L1. apply andb_true_iff in L1. destruct L1 as (L1 & L3). split; [|exact L3].
  clear - L1. induction (part_keys ty) as [|y l IH]; [discriminate L1|]. cbn [smem] in L1. destruct (k =?s y) eqn:E; [apply String.eqb_eq in E; now left|right; auto].
Qed.

Lemma lean_once : forall o, lean (JObj o) = true -> once (map fst o) = true.
Proof. intros o L. cbn [lean] in L. apply andb_true_iff in L. apply L. Qed.

Lemma smem_mid : forall k a b, smem k (a ++ k :: b) = true.
Proof. intros k a b. induction a as [|y a IH]; cbn [app smem]; [now rewrite String.eqb_refl|]. destruct (k =?s y); auto. Qed.

Section Place.
Variables x x' : json.
Hypothesis Tx : exists ty, is_a x ty /\ In ty targets.

Inductive hit : json -> json -> Prop :=
| hit_here : hit x x'
| hit_obj : forall o1 k w w' o2, hit w w' -> hit (JObj (o1 ++ (k, w) :: o2)) (JObj (o1 ++ (k, w') :: o2))
| hit_arr : forall a w w' b, hit w w' -> hit (JArr (a ++ w :: b)) (JArr (a ++ w' :: b)).

Lemma hit_at : forall p n, subtree p n = Some x -> hit n (set_subtree p x' n).
Proof.
  induction p as [|i p IH]; intros n H; cbn [subtree set_subtree] in *.
  - injection H as ->. constructor.
  - destruct (nth_error (children n) i) as [c|] eqn:E; [|discriminate H]. specialize (IH c H).
    destruct n as [| | | |l|o]; cbn [children] in E; try (destruct i; discriminate E).
    + destruct (nth_cut _ _ _ _ E) as (l1 & l2 & -> & <-). cbn [set_child]. rewrite replace_cut. now constructor.
    + rewrite nth_error_map in E. destruct (nth_error o i) as [[k v]|] eqn:F; cbn in E; [|discriminate E]. injection E as ->.
      destruct (nth_cut _ _ _ _ F) as (l1 & l2 & -> & <-). cbn [set_child]. rewrite set_value_cut. now constructor.
Qed.

Lemma x_object : exists o, x = JObj o.
Proof. destruct Tx as (ty & A & _). unfold is_a, fld, oget in A. destruct x; try discriminate A. eauto. Qed.

Lemma hit_objects : forall v v', hit v v' -> without_objects v = false.
Proof.
  intros v v' H. induction H as [|o1 k w w' o2 H IH|a w w' b H IH].
  - destruct x_object as (o & ->). reflexivity.
  - reflexivity.
  - cbn [without_objects]. rewrite forallb_app. cbn [forallb]. rewrite IH. now rewrite andb_false_r.
Qed.

Definition keeps (v v' : json) : Prop :=
  (forall k y, fld v k y -> without_objects y = true -> fld v' k y) /\ (forall k, oget v k = None -> oget v' k = None).

Lemma hit_inv : forall v v' ty, is_a v ty -> hit v v' ->
  (v = x /\ v' = x') \/
  (lean v = false /\ keeps v v' /\ forall k, In k (part_keys ty) -> oget v' k = oget v k) \/
  exists k w w', In k (part_keys ty) /\ fld v k w /\ fld v' k w' /\ hit w w' /\ (lean w = false -> lean v = false) /\ keeps v v' /\
    forall k', k' <> k -> oget v' k' = oget v k'.
Proof.
  intros v v' ty A H. destruct H as [|o1 k w w' o2 H|a w w' b H]; [now left| |discriminate A]. right.
  pose proof (hit_objects _ _ H) as NW.
  set (v := JObj (o1 ++ (k, w) :: o2)) in *. set (v' := JObj (o1 ++ (k, w') :: o2)).
  assert (K : forall k', oget v' k' = oget v k' \/ (k' = k /\ oget v k' = Some w /\ oget v' k' = Some w')).
  { intros k'. unfold v, v', oget. destruct (assoc_mid o1 o2 k w w' k') as [E|E]; [left; now rewrite E|now right]. }
  assert (Kp : keeps v v').
  { split.
    - intros k' y F W. destruct (K k') as [E|(_ & E & _)]; [unfold fld; now rewrite E|]. unfold fld in F. rewrite E in F. injection F as ->. congruence.
    - intros k' F. destruct (K k') as [E|(_ & E & _)]; [now rewrite E|congruence]. }
  assert (Ty : ast_type (o1 ++ (k, w) :: o2) = ty).
  { unfold ast_type. unfold is_a, fld, oget, v in A. now rewrite A. }
  assert (L : lean v = true -> In k (part_keys ty) /\ lean w = true).
  { intros L. rewrite <- Ty. apply (lean_obj _ k w L); [apply in_or_app; right; now left|exact NW]. }
  destruct (smem k (map fst o1)) eqn:Sk.
  - (* an earlier entry with this key *)
    left. split; [|split; [exact Kp|]].
    + destruct (lean v) eqn:Lv; [|reflexivity]. exfalso. apply lean_once in Lv.
      clear - Lv Sk. induction o1 as [|[k1 v1] o1 IH]; cbn [app map fst once smem] in *; [discriminate Sk|].
      apply andb_true_iff in Lv. destruct Lv as (L1 & L2). destruct (k =?s k1) eqn:Q; [|auto]. apply String.eqb_eq in Q. subst k1.
      rewrite map_app in L1. cbn [map fst] in L1. now rewrite smem_mid in L1.
    + intros k' _. unfold v, v', oget. clear - Sk. induction o1 as [|[k1 v1] o1 IH]; cbn [app map fst assoc smem] in *; [discriminate Sk|].
      destruct (k =?s k1) eqn:Q.
      * apply String.eqb_eq in Q. subst k1. destruct (k' =?s k) eqn:Q; [reflexivity|]. clear - Q. induction o1 as [|[k1 v2] o1 IH]; cbn [app assoc]; [now rewrite Q|].
        destruct (k' =?s k1); auto.
      * destruct (k' =?s k1); auto.
  - assert (E : oget v k = Some w /\ oget v' k = Some w').
    { unfold v, v', oget. clear - Sk. induction o1 as [|[k1 v1] o1 IH]; cbn [app map fst assoc smem] in *; [now rewrite String.eqb_refl|].
      destruct (k =?s k1); [discriminate Sk|auto]. }
    destruct E as (E & E').
    destruct (in_dec string_dec k (part_keys ty)) as [I|I].
    + right. exists k, w, w'. unfold fld. repeat split; try assumption; try exact (proj1 Kp); try exact (proj2 Kp).
      * intros Lw. destruct (lean v) eqn:Lv; [|reflexivity]. destruct (L eq_refl) as (_ & Q). congruence.
      * intros k' N. destruct (K k') as [E2|(Q & _)]; [exact E2|congruence].
    + left. split; [|split; [exact Kp|]].
      * destruct (lean v) eqn:Lv; [|reflexivity]. destruct (L eq_refl) as (Q & _). contradiction.
      * intros k' I'. destruct (K k') as [E2|(-> & _)]; [exact E2|contradiction].
Qed.

(** ** What becomes of a part *)

Definition chain (t0 t0' t t' : thing) : Prop := edited (fun u w => u = t0 /\ w = t0') t t'.

(** Either the replaced node stands for nothing, or for a part [t0]; then
    whatever [t0'] the new node stands for takes its place. *)
Definition out (t : thing) (v v' : json) : Prop :=
  (lean v = false /\ any t v') \/
  exists t0, any t0 x /\ forall t0', sort t0 t0' -> any t0' x' -> exists t', sort t t' /\ any t' v' /\ chain t0 t0' t t'.

Lemma out_here : forall t, any t x -> out t x x'.
Proof. intros t H. right. exists t. split; [exact H|]. intros t0' S H'. exists t0'. split; [exact S|]. split; [exact H'|]. now constructor. Qed.

Lemma lift : forall A (inj : A -> thing) (T : A -> thing) a v v' w w',
  (forall a c, sort (inj a) c -> exists a', c = inj a') ->
  out (inj a) w w' -> (lean w = false -> lean v = false) ->
  (forall a', any (inj a') w' -> any (T a') v') -> (forall a', step (inj a) (inj a') (T a) (T a')) -> (forall a', sort (T a) (T a')) ->
  out (T a) v v'.
Proof.
  intros A inj T a v v' w w' Si [(L & H)|(t0 & H0 & H)] Lw HT Hs So.
  - left. auto.
  - right. exists t0. split; [exact H0|]. intros t0' S H1. destruct (H t0' S H1) as (c & Sc & Hc & E). destruct (Si a c Sc) as (a' & ->).
    exists (T a'). split; [apply So|]. split; [apply HT, Hc|]. exact (ed_inside _ _ _ _ _ (Hs a') E).
Qed.

Lemma hit_list : forall l w', hit (JArr l) w' -> exists a w w2 b, l = a ++ w :: b /\ w' = JArr (a ++ w2 :: b) /\ hit w w2 /\ (lean w = false -> lean (JArr l) = false).
Proof.
  intros l w' H. inversion H as [E1 E2| |a w w2 b H1]; subst.
  - destruct x_object as (o & Q). congruence.
  - exists a, w, w2, b. repeat split; [assumption|]. intros L. cbn [lean]. rewrite forallb_app. cbn [forallb]. rewrite L. now rewrite andb_false_r.
Qed.

Lemma not_target : forall v ty, is_a v ty -> smem ty targets = false -> v <> x.
Proof.
  intros v ty A N ->. destruct Tx as (ty' & A' & I). unfold is_a, fld in *. rewrite A in A'. injection A' as <-.
  clear - N I. induction targets as [|y l IH]; [exact I|]. cbn [smem] in N. destruct I as [->|I]; [now rewrite String.eqb_refl in N|].
  destruct (ty =?s y); [discriminate N|auto].
Qed.

(** A node without parts, none of the targets. *)
Lemma role_hit : forall v v' ty, is_a v ty -> smem ty targets = false -> part_keys ty = [] -> hit v v' -> lean v = false /\ is_a v' ty.
Proof.
  intros v v' ty A N P H. destruct (hit_inv v v' ty A H) as [(E & _)|[(L & (K & _) & _)|(k & w & w' & I & _)]].
  - now apply (not_target v ty A N) in E.
  - split; [exact L|]. apply K; [exact A|reflexivity].
  - rewrite P in I. destruct I.
Qed.

Lemma binary_role : forall ty op, In (ty, op) binary_symbols -> smem ty targets = false /\ part_keys ty = [].
Proof. intros ty op I. cbn in I. repeat (destruct I as [I|I]; [injection I as <- <-; split; reflexivity|]). destruct I. Qed.
Lemma compare_role : forall ty op, In (ty, op) compare_symbols -> smem ty targets = false /\ part_keys ty = [].
Proof. intros ty op I. cbn in I. repeat (destruct I as [I|I]; [injection I as <- <-; split; reflexivity|]). destruct I. Qed.

Lemma jint_flat : forall z, without_objects (jint z) = true.
Proof. intros z. unfold jint. repeat match goal with |- context [if ?b then _ else _] => destruct b end; reflexivity. Qed.

Lemma keeps_missing : forall v v' k, keeps v v' -> missing v k -> missing v' k.
Proof. intros v v' k (K1 & K2) [M|M]; [left; auto|right; apply (K1 k JNull M eq_refl)]. Qed.

(** Fields carried over from [v] to [v']. *)
Ltac carry := match goal with
  | K : keeps ?v ?v' |- fld ?v' _ _ => first
      [ eassumption
      | apply (proj1 K); [eassumption|first [reflexivity|apply jint_flat]]
      | match goal with E : forall k, _ -> oget v' k = oget v k |- _ => unfold fld; rewrite E; [eassumption|first [discriminate|cbn; tauto]] end ]
  | K : keeps ?v ?v' |- is_a ?v' _ => apply (proj1 K); [eassumption|reflexivity]
  | K : keeps ?v ?v' |- missing ?v' _ => apply (keeps_missing _ _ _ K); eassumption
  end.
Ltac carry_op := match goal with
  | O : exists ty, In _ _ /\ has_op ?v ty |- exists ty, In _ _ /\ has_op ?v' ty =>
      let ty := fresh "ty" in let I := fresh "I" in let o := fresh "o" in let F := fresh "F" in let A := fresh "A" in
      destruct O as (ty & I & o & F & A); exists ty; split; [exact I|]; exists o; split; [carry|exact A]
  | O : has_op ?v ?ty |- has_op ?v' ?ty =>
      let o := fresh "o" in let F := fresh "F" in let A := fresh "A" in destruct O as (o & F & A); exists o; split; [carry|exact A]
  end.
Ltac carry_child := match goal with |- exists v, @?P v => eexists; split; [carry|assumption] end.
Ltac rebuild := cbn [any vnode csnode snode onode tnode]; repeat first [assumption | carry | carry_op | carry_child | match goal with |- _ /\ _ => split end].

Ltac use_field := match goal with
  | Hw : hit ?w _, F1 : fld ?v ?k ?w, F2 : fld ?v ?k ?a |- _ => unfold fld in F1; rewrite F2 in F1; injection F1 as F1; subst w
  end.

Lemma missing_hit : forall v k w w', missing v k -> fld v k w -> hit w w' -> False.
Proof.
  intros v k w w' [M|M] F H; unfold fld in *; rewrite M in F; [discriminate F|]. injection F as <-. apply hit_objects in H. discriminate H.
Qed.

Definition placed (e : vexp) : Prop := forall v v', vnode e v -> hit v v' -> out (TE e) v v'.

Lemma op_hit : forall v v' w w' (symbols : list (string * string)) op T,
  (forall ty op, In (ty, op) symbols -> smem ty targets = false /\ part_keys ty = []) ->
  (exists ty, In (ty, op) symbols /\ has_op v ty) -> fld v "op" w -> fld v' "op" w' -> hit w w' -> (lean w = false -> lean v = false) ->
  ((exists ty, In (ty, op) symbols /\ has_op v' ty) -> any T v') -> out T v v'.
Proof.
  intros v v' w w' symbols op T R (ty & I & o & Fo & A) F F' H L G. unfold fld in Fo, F. rewrite F in Fo. injection Fo as <-.
  destruct (R ty op I) as (N & P). destruct (role_hit w w' ty A N P H) as (Lw & A'). left. split; [auto|].
  apply G. exists ty. split; [exact I|]. exists w'. split; [exact F'|exact A'].
Qed.


(** The keyword arguments and the pairs of a dictionary. *)
Definition kwnode (kv : string * vexp) (n : json) : Prop :=
  is_a n "keyword" /\ fld n "arg" (JStr (fst kv)) /\ exists v, fld n "value" v /\ vnode (snd kv) v.

Lemma kws_nodes : forall (kws : list (string * vexp)) ns,
  (fix go (kws : list (string * vexp)) ns := match kws, ns with
                           | [], [] => True
                           | kv :: kws, n :: ns =>
                               is_a n "keyword" /\ fld n "arg" (JStr (fst kv)) /\
                               (exists v, fld n "value" v /\ vnode (snd kv) v) /\ go kws ns
                           | _, _ => False
                           end) kws ns <-> Forall2 kwnode kws ns.
Proof.
  induction kws as [|kv kws IH]; intros [|n ns]; split; intros H; try solve [constructor|destruct H|inversion H].
  - destruct H as (A & B & C & D). constructor; [repeat split; assumption|]. now apply IH.
  - inversion H as [|? ? ? ? (A & B & C) D]; subst. split; [exact A|]. split; [exact B|]. split; [exact C|]. now apply IH.
Qed.

Lemma dict_nodes : forall (l : list (vexp * vexp)) ks vs,
  (fix go (l : list (vexp * vexp)) ks vs := match l, ks, vs with
                            | [], [], [] => True
                            | kv :: l, k :: ks, v :: vs => vnode (fst kv) k /\ vnode (snd kv) v /\ go l ks vs
                            | _, _, _ => False
                            end) l ks vs <-> (Forall2 (fun kv => vnode (fst kv)) l ks /\ Forall2 (fun kv => vnode (snd kv)) l vs).
Proof.
  induction l as [|kv l IH]; intros [|k ks] [|v vs]; split; intros H;
    try solve [split; constructor|destruct H|destruct H as (H1 & H2); inversion H1|destruct H as (H1 & H2); inversion H2].
  - destruct H as (A & B & C). apply IH in C. split; constructor; tauto.
  - destruct H as (H1 & H2). inversion H1; inversion H2; subst. repeat split; [assumption|assumption|]. apply IH. auto.
Qed.

Ltac begin_ A H H0 Hi := destruct (hit_inv _ _ _ A Hi) as [(-> & ->)|[(L & K & E)|(k & w & w' & I & Fw & Fw' & Hw & Lw & K & E)]];
  [apply out_here; exact H0|left; split; [exact L|]|cbn in I].

(** In the list [es] of expressions, standing under the key of [v]. *)
Lemma list_hit : forall A (R : A -> json -> Prop) es l w', Forall2 R es l -> hit (JArr l) w' ->
  exists eu e ev u w w2 b, es = eu ++ e :: ev /\ l = u ++ w :: b /\ w' = JArr (u ++ w2 :: b) /\ Forall2 R eu u /\ R e w /\ Forall2 R ev b /\ hit w w2 /\
    (lean w = false -> lean (JArr l) = false).
Proof.
  intros A R es l w' F H. destruct (hit_list l w' H) as (u & w & w2 & b & -> & -> & Hw & L).
  destruct (Forall2_mid_inv _ _ R es u w b F) as (eu & e & ev & -> & F1 & F2 & F3). exists eu, e, ev, u, w, w2, b. repeat split; assumption.
Qed.

Lemma all_placed : forall e, placed e.
Proof.
  induction e as [y|z|hx s|s|bs|b|op a b IHa IHb|op a b IHa IHb|both a b more IHa IHb IHm|a IHa|a IHa|a IHa|a y IHa|a i more IHa IHi IHm|f args kws IHf IHa IHk|l IHl|l IHl|l IHl]
    using vexp_ind'; intros v v' H Hi; pose proof H as H0; cbn [vnode] in H.
  - destruct H as (A & F). begin_ A H H0 Hi; [rebuild|destruct I].
  - destruct H as (A & F & Z). begin_ A H H0 Hi; [rebuild|destruct I].
  - destruct H as (A & F). begin_ A H H0 Hi; [rebuild|destruct hx; destruct I].
  - destruct H as (A & F). begin_ A H H0 Hi; [rebuild|destruct I].
  - destruct H as (A & F). begin_ A H H0 Hi; [rebuild|destruct I].
  - destruct H as (A & F). begin_ A H H0 Hi; [|destruct I].
    cbn [any vnode]. split; [carry|]. apply (proj1 K); [exact F|destruct b as [[|]|]; reflexivity].
  - (* binary *)
    destruct H as (A & O & (va & Fa & Na) & (vb & Fb & Nb)). begin_ A H H0 Hi; [rebuild|]. destruct I as [<-|[<-|[<-|[]]]].
    + apply (op_hit v v' w w' binary_symbols op _ binary_role O Fw Fw' Hw Lw). intros O'. clear O. rebuild.
    + use_field. apply (lift _ TE (fun a => TE (VBin op a b)) a v v' _ w' sort_TE (IHa _ _ Na Hw) Lw); [|constructor|now intros].
      intros a' Na'. cbn [any] in Na'. rebuild.
    + use_field. apply (lift _ TE (fun b => TE (VBin op a b)) b v v' _ w' sort_TE (IHb _ _ Nb Hw) Lw); [|constructor|now intros].
      intros a' Na'. cbn [any] in Na'. rebuild.
  - (* comparison *)
    destruct H as (A & O & (va & Fa & Na) & (vb & Fb & Nb)). begin_ A H H0 Hi; [rebuild|]. destruct I as [<-|[<-|[<-|[]]]].
    + apply (op_hit v v' w w' compare_symbols op _ compare_role O Fw Fw' Hw Lw). intros O'. clear O. rebuild.
    + use_field. apply (lift _ TE (fun a => TE (VCmp op a b)) a v v' _ w' sort_TE (IHa _ _ Na Hw) Lw); [|constructor|now intros].
      intros a' Na'. cbn [any] in Na'. rebuild.
    + use_field. apply (lift _ TE (fun b => TE (VCmp op a b)) b v v' _ w' sort_TE (IHb _ _ Nb Hw) Lw); [|constructor|now intros].
      intros a' Na'. cbn [any] in Na'. rebuild.
  - (* and, or *)
    destruct H as (A & O & va & vb & l & F & Na & Nb & Nm). begin_ A H H0 Hi.
    + cbn [any vnode]. split; [carry|]. split; [carry_op|]. exists va, vb, l. split; [carry|auto].
    + destruct I as [<-|[<-|[]]].
      * destruct O as (o & Fo & Ao). use_field. destruct (role_hit o w' _ Ao) as (Lo & Ao'); [destruct both; reflexivity|destruct both; reflexivity|exact Hw|].
        left. split; [auto|]. cbn [any vnode]. split; [carry|]. split; [exists w'; auto|]. exists va, vb, l. split; [carry|auto].
      * use_field. destruct (hit_list _ _ Hw) as (u & w & w2 & r & El & -> & Hw2 & L2). assert (L3 : lean w = false -> lean v = false) by auto.
        destruct u as [|u1 [|u2 u]]; cbn [app] in El, Fw'.
        -- injection El as -> El. subst r.
           apply (lift _ TE (fun a => TE (VLogic both a b more)) a v v' _ w2 sort_TE (IHa _ _ Na Hw2) L3); [|constructor|now intros].
           intros a' Na'. cbn [any] in *. cbn [vnode]. split; [carry|]. split; [carry_op|]. exists w2, vb, l. auto.
        -- injection El as <- -> El. subst r.
           apply (lift _ TE (fun b => TE (VLogic both a b more)) b v v' _ w2 sort_TE (IHb _ _ Nb Hw2) L3); [|constructor|now intros].
           intros a' Na'. cbn [any] in *. cbn [vnode]. split; [carry|]. split; [carry_op|]. exists va, w2, l. auto.
        -- injection El as <- <- ->. apply elements_Forall2 in Nm. destruct (Forall2_mid_inv _ _ _ _ _ _ _ Nm) as (eu & e & ev & -> & F1 & F2 & F3).
           apply (lift _ TE (fun e => TE (VLogic both a b (eu ++ e :: ev))) e v v' _ w2 sort_TE (Forall_mid _ _ _ _ _ IHm _ _ F2 Hw2) L3); [|constructor|now intros].
           intros a' Na'. cbn [any] in *. cbn [vnode]. split; [carry|]. split; [carry_op|]. exists va, vb, (u ++ w2 :: r). repeat split; try assumption.
           apply elements_of, Forall2_mid; assumption.
  - (* not *)
    destruct H as (A & (o & Fo & Ao) & (va & Fa & Na)). begin_ A H H0 Hi.
    + cbn [any vnode]. split; [carry|]. split; [exists o; split; [carry|exact Ao]|]. carry_child.
    + destruct I as [<-|[<-|[]]].
      * use_field. destruct (role_hit o w' _ Ao eq_refl eq_refl Hw) as (Lo & Ao'). left. split; [auto|]. cbn [any vnode]. split; [carry|]. split; [exists w'; auto|]. carry_child.
      * use_field. apply (lift _ TE (fun a => TE (VNot a)) a v v' _ w' sort_TE (IHa _ _ Na Hw) Lw); [|constructor|now intros].
        intros a' Na'. cbn [any] in *. cbn [vnode]. split; [carry|]. split; [exists o; split; [carry|exact Ao]|]. exists w'. auto.
  - destruct H as (A & (o & Fo & Ao) & (va & Fa & Na)). begin_ A H H0 Hi.
    + cbn [any vnode]. split; [carry|]. split; [exists o; split; [carry|exact Ao]|]. carry_child.
    + destruct I as [<-|[<-|[]]].
      * use_field. destruct (role_hit o w' _ Ao eq_refl eq_refl Hw) as (Lo & Ao'). left. split; [auto|]. cbn [any vnode]. split; [carry|]. split; [exists w'; auto|]. carry_child.
      * use_field. apply (lift _ TE (fun a => TE (VInvert a)) a v v' _ w' sort_TE (IHa _ _ Na Hw) Lw); [|constructor|now intros].
        intros a' Na'. cbn [any] in *. cbn [vnode]. split; [carry|]. split; [exists o; split; [carry|exact Ao]|]. exists w'. auto.
  - destruct H as (A & (o & Fo & Ao) & (va & Fa & Na)). begin_ A H H0 Hi.
    + cbn [any vnode]. split; [carry|]. split; [exists o; split; [carry|exact Ao]|]. carry_child.
    + destruct I as [<-|[<-|[]]].
      * use_field. destruct (role_hit o w' _ Ao eq_refl eq_refl Hw) as (Lo & Ao'). left. split; [auto|]. cbn [any vnode]. split; [carry|]. split; [exists w'; auto|]. carry_child.
      * use_field. apply (lift _ TE (fun a => TE (VNeg a)) a v v' _ w' sort_TE (IHa _ _ Na Hw) Lw); [|constructor|now intros].
        intros a' Na'. cbn [any] in *. cbn [vnode]. split; [carry|]. split; [exists o; split; [carry|exact Ao]|]. exists w'. auto.
  - (* member *)
    destruct H as (A & (va & Fa & Na) & Fy). begin_ A H H0 Hi; [rebuild|]. destruct I as [<-|[]].
    use_field. apply (lift _ TE (fun a => TE (VAttr a y)) a v v' _ w' sort_TE (IHa _ _ Na Hw) Lw); [|constructor|now intros].
    intros a' Na'. cbn [any] in Na'. rebuild.
  - (* index *)
    destruct H as (A & (va & Fa & Na) & s & iv & Fs & As & Fi & M). begin_ A H H0 Hi.
    + cbn [any vnode]. split; [carry|]. split; [carry_child|]. exists s, iv. split; [carry|auto].
    + destruct I as [<-|[<-|[]]].
      * use_field. apply (lift _ TE (fun a => TE (VSub a i more)) a v v' _ w' sort_TE (IHa _ _ Na Hw) Lw); [|constructor|now intros].
        intros a' Na'. cbn [any] in *. cbn [vnode]. split; [carry|]. split; [exists w'; auto|]. exists s, iv. split; [carry|auto].
      * use_field. rename s into ix.
        destruct (hit_inv ix w' _ As Hw) as [(Q & _)|[(L2 & K2 & E2)|(k2 & w2 & w2' & I2 & Fw2 & Fw2' & Hw2 & Lw2 & K2 & E2)]].
        -- exfalso. exact (not_target ix _ As eq_refl Q).
        -- left. split; [auto|]. cbn [any vnode]. split; [carry|]. split; [carry_child|]. exists w', iv. split; [exact Fw'|]. split; [exact (proj1 K2 _ _ As eq_refl)|].
           split; [unfold fld; rewrite E2; [exact Fi|cbn; tauto]|exact M].
        -- cbn in I2. destruct I2 as [<-|[]]. use_field. assert (L3 : lean iv = false -> lean v = false) by auto.
           destruct more as [|m more].
           ++ apply (lift _ TE (fun i => TE (VSub a i [])) i v v' _ w2' sort_TE (IHi _ _ M Hw2) L3); [|constructor|now intros].
              intros a' Na'. cbn [any] in *. cbn [vnode]. split; [carry|]. split; [carry_child|]. exists w', w2'. split; [exact Fw'|]. split; [exact (proj1 K2 _ _ As eq_refl)|]. auto.
           ++ destruct M as (x1 & l & At & Fl & N1 & Nm).
              destruct (hit_inv iv w2' _ At Hw2) as [(Q & _)|[(L4 & K4 & E4)|(k4 & w4 & w4' & I4 & Fw4 & Fw4' & Hw4 & Lw4 & K4 & E4)]].
              ** exfalso. exact (not_target iv _ At eq_refl Q).
              ** left. split; [auto|]. cbn [any vnode]. split; [carry|]. split; [carry_child|]. exists w', w2'. split; [exact Fw'|]. split; [exact (proj1 K2 _ _ As eq_refl)|].
                 split; [exact Fw2'|]. exists x1, l. split; [exact (proj1 K4 _ _ At eq_refl)|]. split; [unfold fld; rewrite E4; [exact Fl|cbn; tauto]|auto].
              ** cbn in I4. destruct I4 as [<-|[]]. use_field. destruct (hit_list _ _ Hw4) as (u & w & w5 & r & El & -> & Hw5 & L5).
                 assert (L6 : lean w = false -> lean v = false) by auto.
                 destruct u as [|u1 u]; cbn [app] in El, Fw4'.
                 --- injection El as -> <-.
                     apply (lift _ TE (fun i => TE (VSub a i (m :: more))) i v v' _ w5 sort_TE (IHi _ _ N1 Hw5) L6); [|constructor|now intros].
                     intros a' Na'. cbn [any] in *. cbn [vnode]. split; [carry|]. split; [carry_child|]. exists w', w2'. split; [exact Fw'|]. split; [exact (proj1 K2 _ _ As eq_refl)|].
                     split; [exact Fw2'|]. exists w5, l. split; [exact (proj1 K4 _ _ At eq_refl)|]. auto.
                 --- injection El as <- ->. apply elements_Forall2 in Nm. destruct (Forall2_mid_inv _ _ _ _ _ _ _ Nm) as (eu & e & ev & Em & F1 & F2 & F3).
                     rewrite Em in IHm |- *.
                     apply (lift _ TE (fun e => TE (VSub a i (eu ++ e :: ev))) e v v' _ w5 sort_TE (Forall_mid _ _ _ _ _ IHm _ _ F2 Hw5) L6); [|constructor|now intros].
                     intros a' Na'. cbn [any] in *. cbn [vnode]. split; [carry|]. split; [carry_child|]. exists w', w2'. split; [exact Fw'|]. split; [exact (proj1 K2 _ _ As eq_refl)|].
                     split; [exact Fw2'|]. assert (G : elements vnode (eu ++ a' :: ev) (u ++ w5 :: r)) by (apply elements_of, Forall2_mid; assumption).
                     destruct (eu ++ a' :: ev) as [|q qs] eqn:Eq; [destruct eu; discriminate Eq|].
                     exists x1, (u ++ w5 :: r). split; [exact (proj1 K4 _ _ At eq_refl)|]. auto.
  - (* call *)
    destruct H as (A & (vf & Ff & Nf) & (ns & Fn & Nn) & (ks & Fk & Nk)). apply kws_nodes in Nk.
    assert (Back : forall f args kws n, is_a n "Call" -> (exists v, fld n "func" v /\ vnode f v) -> (exists l, fld n "args" (JArr l) /\ elements vnode args l) ->
      (exists l, fld n "keywords" (JArr l) /\ Forall2 kwnode kws l) -> any (TE (VCall f args kws)) n).
    { intros f0 args0 kws0 n B1 B2 B3 (l & B4 & B5). cbn [any vnode]. split; [exact B1|]. split; [exact B2|]. split; [exact B3|]. exists l. split; [exact B4|]. now apply kws_nodes. }
    begin_ A H H0 Hi.
    + apply Back; [carry|carry_child|carry_child|carry_child].
    + destruct I as [<-|[<-|[<-|[]]]].
      * use_field. apply (lift _ TE (fun f => TE (VCall f args kws)) f v v' _ w' sort_TE (IHf _ _ Nf Hw) Lw); [|constructor|now intros].
        intros a' Na'. apply Back; [carry|exists w'; auto|carry_child|carry_child].
      * use_field. apply elements_Forall2 in Nn. destruct (list_hit _ _ _ _ _ Nn Hw) as (eu & e & ev & u & w & w2 & b & -> & -> & -> & F1 & F2 & F3 & H2 & L2).
        assert (L3 : lean w = false -> lean v = false) by auto.
        apply (lift _ TE (fun e => TE (VCall f (eu ++ e :: ev) kws)) e v v' _ w2 sort_TE (Forall_mid _ _ _ _ _ IHa _ _ F2 H2) L3); [|constructor|now intros].
        intros a' Na'. apply Back; [carry|carry_child| |carry_child]. eexists. split; [exact Fw'|]. apply elements_of, Forall2_mid; assumption.
      * use_field. destruct (list_hit _ _ _ _ _ Nk Hw) as (eu & e & ev & u & w & w2 & b & -> & -> & -> & F1 & (A2 & Fa2 & v2 & Fv2 & N2) & F3 & H2 & L2).
        assert (L3 : lean w = false -> lean v = false) by auto.
        destruct (hit_inv w w2 _ A2 H2) as [(Q & _)|[(L4 & K4 & E4)|(k4 & w4 & w4' & I4 & Fw4 & Fw4' & Hw4 & Lw4 & K4 & E4)]].
        -- exfalso. exact (not_target w _ A2 eq_refl Q).
        -- left. split; [auto|]. apply Back; [carry|carry_child|carry_child|]. eexists. split; [exact Fw'|]. apply Forall2_mid; try assumption.
           split; [exact (proj1 K4 _ _ A2 eq_refl)|]. split; [exact (proj1 K4 _ _ Fa2 eq_refl)|]. exists v2. split; [unfold fld; rewrite E4; [exact Fv2|cbn; tauto]|exact N2].
        -- cbn in I4. destruct I4 as [<-|[]]. use_field. assert (L5 : lean v2 = false -> lean v = false) by auto. destruct e as [kx ke]. cbn [fst snd] in *.
           apply (lift _ TE (fun e => TE (VCall f args (eu ++ (kx, e) :: ev))) ke v v' _ w4' sort_TE (Forall_mid _ _ _ _ _ IHk _ _ N2 Hw4) L5); [|constructor|now intros].
           intros a' Na'. apply Back; [carry|carry_child|carry_child|]. eexists. split; [exact Fw'|]. apply Forall2_mid; try assumption.
           split; [exact (proj1 K4 _ _ A2 eq_refl)|]. split; [exact (proj1 K4 _ _ Fa2 eq_refl)|]. exists w4'. auto.
  - (* list *)
    destruct H as (A & ns & Fn & Nn). begin_ A H H0 Hi; [rebuild|]. destruct I as [<-|[]]. use_field.
    apply elements_Forall2 in Nn. destruct (list_hit _ _ _ _ _ Nn Hw) as (eu & e & ev & u & w & w2 & b & -> & -> & -> & F1 & F2 & F3 & H2 & L2).
    assert (L3 : lean w = false -> lean v = false) by auto.
    apply (lift _ TE (fun e => TE (VList (eu ++ e :: ev))) e v v' _ w2 sort_TE (Forall_mid _ _ _ _ _ IHl _ _ F2 H2) L3); [|constructor|now intros].
    intros a' Na'. cbn [any vnode]. split; [carry|]. eexists. split; [exact Fw'|]. apply elements_of, Forall2_mid; assumption.
  - destruct H as (A & ns & Fn & Nn). begin_ A H H0 Hi; [rebuild|]. destruct I as [<-|[]]. use_field.
    apply elements_Forall2 in Nn. destruct (list_hit _ _ _ _ _ Nn Hw) as (eu & e & ev & u & w & w2 & b & -> & -> & -> & F1 & F2 & F3 & H2 & L2).
    assert (L3 : lean w = false -> lean v = false) by auto.
    apply (lift _ TE (fun e => TE (VTuple (eu ++ e :: ev))) e v v' _ w2 sort_TE (Forall_mid _ _ _ _ _ IHl _ _ F2 H2) L3); [|constructor|now intros].
    intros a' Na'. cbn [any vnode]. split; [carry|]. eexists. split; [exact Fw'|]. apply elements_of, Forall2_mid; assumption.
  - (* dictionary *)
    destruct H as (A & ks & vs & Fk & Fv & N). apply dict_nodes in N. destruct N as (Nk & Nv).
    assert (Back : forall l n, is_a n "Dict" -> (exists ks, fld n "keys" (JArr ks) /\ Forall2 (fun kv => vnode (fst kv)) l ks) ->
      (exists vs, fld n "values" (JArr vs) /\ Forall2 (fun kv => vnode (snd kv)) l vs) -> any (TE (VDict l)) n).
    { intros l0 n B1 (k0 & B2 & B3) (v0 & B4 & B5). cbn [any vnode]. split; [exact B1|]. exists k0, v0. split; [exact B2|]. split; [exact B4|]. apply dict_nodes. auto. }
    begin_ A H H0 Hi.
    + apply Back; [carry|carry_child|carry_child].
    + destruct I as [<-|[<-|[]]].
      * use_field. destruct (list_hit _ _ _ _ _ Nk Hw) as (eu & e & ev & u & w & w2 & b & -> & -> & -> & F1 & F2 & F3 & H2 & L2).
        assert (L3 : lean w = false -> lean v = false) by auto. destruct e as [ek e]. cbn [fst snd] in *.
        apply (lift _ TE (fun q => TE (VDict (eu ++ (q, e) :: ev))) ek v v' _ w2 sort_TE (proj1 (Forall_mid _ _ _ _ _ IHl) _ _ F2 H2) L3); [|constructor|now intros].
        intros a' Na'. apply Back; [carry| |].
        -- eexists. split; [exact Fw'|]. apply Forall2_mid; assumption.
        -- exists vs. split; [carry|]. destruct (Forall2_app_inv_l _ _ Nv) as (v1 & v2 & G1 & G2 & ->). inversion G2; subst. apply Forall2_mid; assumption.
      * use_field. destruct (list_hit _ _ _ _ _ Nv Hw) as (eu & e & ev & u & w & w2 & b & -> & -> & -> & F1 & F2 & F3 & H2 & L2).
        assert (L3 : lean w = false -> lean v = false) by auto. destruct e as [ek e]. cbn [fst snd] in *.
        apply (lift _ TE (fun q => TE (VDict (eu ++ (ek, q) :: ev))) e v v' _ w2 sort_TE (proj2 (Forall_mid _ _ _ _ _ IHl) _ _ F2 H2) L3); [|constructor|now intros].
        intros a' Na'. apply Back; [carry| |].
        -- exists ks. split; [carry|]. destruct (Forall2_app_inv_l _ _ Nk) as (v1 & v2 & G1 & G2 & ->). inversion G2; subst. apply Forall2_mid; assumption.
        -- eexists. split; [exact Fw'|]. apply Forall2_mid; assumption.
Qed.

(** ** Statements *)

Lemma mid_cases : forall A (a : list A) w b cs n more, a ++ w :: b = cs ++ n :: more ->
  (exists r, cs = a ++ w :: r /\ b = r ++ n :: more) \/ (a = cs /\ w = n /\ b = more) \/ (exists r, a = cs ++ n :: r /\ more = r ++ w :: b).
Proof.
  intros A a w b. induction a as [|y a IH]; intros [|z cs] n more E; cbn [app] in E; injection E as E1 E2.
  - subst. right. left. auto.
  - subst. left. exists cs. auto.
  - subst. right. right. exists a. auto.
  - subst. destruct (IH _ _ _ E2) as [(r & -> & ->)|[(-> & -> & ->)|(r & -> & ->)]].
    + left. exists r. auto.
    + right. left. auto.
    + right. right. exists r. auto.
Qed.

Lemma comments_split : forall A (R : A -> json -> Prop) l a w b, with_comments R l (a ++ w :: b) ->
  (a_comment w /\ forall w2, a_comment w2 -> with_comments R l (a ++ w2 :: b)) \/
  exists eu e ev, l = eu ++ e :: ev /\ R e w /\ forall e' w2, R e' w2 -> with_comments R (eu ++ e' :: ev) (a ++ w2 :: b).
Proof.
  intros A R l. induction l as [|e l IH]; intros a w b H; cbn [with_comments] in H.
  - left. split; [exact (Forall_mid _ _ _ _ _ H)|]. intros w2 C. cbn [with_comments]. apply Forall_app in H. destruct H as (H1 & H2). inversion H2; subst.
    apply Forall_app. split; [exact H1|constructor; assumption].
  - destruct H as (cs & n & more & E & C & N & G). destruct (mid_cases _ _ _ _ _ _ _ E) as [(r & -> & ->)|[(-> & -> & ->)|(r & -> & ->)]].
    + left. split; [exact (Forall_mid _ _ _ _ _ C)|]. intros w2 C2. cbn [with_comments]. exists (a ++ w2 :: r), n, more. rewrite <- app_assoc. split; [reflexivity|].
      apply Forall_app in C. destruct C as (C1 & C3). inversion C3; subst. split; [apply Forall_app; split; [exact C1|constructor; assumption]|auto].
    + right. exists [], e, l. split; [reflexivity|]. split; [exact N|]. intros e' w2 N2. cbn [app with_comments]. exists cs, w2, more. auto.
    + destruct (IH r w b G) as [(C2 & G2)|(eu & e2 & ev & -> & N2 & G2)].
      * left. split; [exact C2|]. intros w2 C3. cbn [with_comments]. exists cs, n, (r ++ w2 :: b). rewrite <- app_assoc. auto.
      * right. exists (e :: eu), e2, ev. split; [reflexivity|]. split; [exact N2|]. intros e' w2 N3. cbn [app with_comments]. exists cs, n, (r ++ w2 :: b). rewrite <- app_assoc. auto.
Qed.

Lemma block_hit : forall A (R : A -> json -> Prop) l ns w', with_comments R l ns -> hit (JArr ns) w' ->
  exists ns', w' = JArr ns' /\
  ((lean (JArr ns) = false /\ with_comments R l ns') \/
   exists eu e ev w w2, l = eu ++ e :: ev /\ R e w /\ hit w w2 /\ (lean w = false -> lean (JArr ns) = false) /\
     forall e', R e' w2 -> with_comments R (eu ++ e' :: ev) ns').
Proof.
  intros A R l ns w' C H. destruct (hit_list ns w' H) as (u & w & w2 & b & -> & -> & Hw & L). exists (u ++ w2 :: b). split; [reflexivity|].
  destruct (comments_split _ R l u w b C) as [(Cw & G)|(eu & e & ev & -> & N & G)].
  - left. destruct (role_hit w w2 _ Cw eq_refl eq_refl Hw) as (Lw & C2). auto.
  - right. exists eu, e, ev, w, w2. auto 10.
Qed.

Lemma top_placed : forall t v v', tnode t v -> hit v v' ->
  (lean v = false /\ tnode t v') \/
  exists e w w' T, t = T e /\ out (TE e) w w' /\ (lean w = false -> lean v = false) /\ (forall e', vnode e' w' -> tnode (T e') v') /\ (forall e', top_step e e' (T e) (T e')).
Proof.
  intros [e|es] v v' H Hi; cbn [tnode] in H.
  - right. exists e, v, v', One. split; [reflexivity|]. split; [exact (all_placed e v v' H Hi)|]. split; [auto|]. split; [auto|constructor].
  - destruct H as (A & ns & Fn & Nn). destruct (hit_inv _ _ _ A Hi) as [(Q & _)|[(L & K & E)|(k & w & w' & I & Fw & Fw' & Hw & Lw & K & E)]].
    + exfalso. exact (not_target v _ A eq_refl Q).
    + left. split; [exact L|]. cbn [tnode]. split; [carry|]. exists ns. split; [carry|exact Nn].
    + cbn in I. destruct I as [<-|[]]. use_field. apply elements_Forall2 in Nn.
      destruct (list_hit _ _ _ _ _ Nn Hw) as (eu & e & ev & u & w & w2 & b & -> & -> & -> & F1 & F2 & F3 & H2 & L2).
      right. exists e, w, w2, (fun e => Many (eu ++ e :: ev)). split; [reflexivity|]. split; [exact (all_placed e w w2 F2 H2)|]. split; [auto|]. split; [|constructor].
      intros e' N'. cbn [tnode]. split; [carry|]. eexists. split; [exact Fw'|]. apply elements_of, Forall2_mid; assumption.
Qed.

Ltac in_exp T e N Hw Lw := apply (lift _ TE T e _ _ _ _ sort_TE (all_placed e _ _ N Hw) Lw); [intros ?a' ?Na'; cbn [any] in *; rebuild|constructor|now intros].

Definition splaced (s : vstmt) : Prop := forall v v', csnode s v -> hit v v' -> out (TS s) v v'.

Lemma all_splaced : forall s, splaced s.
Proof.
  induction s as [e|t e|t op e|t ty e|e|e m|e|e|w|e body orelse IHb IHo|t it body IHb] using vstmt_ind';
    intros v v' H Hi; pose proof H as H0; cbn [csnode snode] in H.
  - destruct H as (A & va & Fa & Na). begin_ A H H0 Hi; [rebuild|]. destruct I as [<-|[]]. use_field. in_exp (fun e => TS (VsExpr e)) e Na Hw Lw.
  - destruct H as (A & (va & Fa & Na) & (vb & Fb & Nb)). begin_ A H H0 Hi; [rebuild|]. destruct I as [<-|[<-|[]]]; use_field.
    + destruct (top_placed t _ _ Na Hw) as [(L & N)|(e0 & w0 & w0' & T & -> & O & L & N & St)].
      * left. split; [auto|]. rebuild.
      * apply (lift _ TE (fun e0 => TS (VsAssign (T e0) e)) e0 v v' w0 w0' sort_TE O); [auto| |intros; constructor; apply St|now intros].
        intros a' Na'. apply N in Na'. rebuild.
    + destruct (top_placed e _ _ Nb Hw) as [(L & N)|(e0 & w0 & w0' & T & -> & O & L & N & St)].
      * left. split; [auto|]. rebuild.
      * apply (lift _ TE (fun e0 => TS (VsAssign t (T e0))) e0 v v' w0 w0' sort_TE O); [auto| |intros; constructor; apply St|now intros].
        intros a' Na'. apply N in Na'. rebuild.
  - destruct H as (A & O & (va & Fa & Na) & (vb & Fb & Nb)). begin_ A H H0 Hi; [rebuild|]. destruct I as [<-|[<-|[<-|[]]]].
    + apply (op_hit v v' w w' binary_symbols op _ binary_role O Fw Fw' Hw Lw). intros O'. clear O. rebuild.
    + use_field. in_exp (fun t => TS (VsAug t op e)) t Na Hw Lw.
    + use_field. in_exp (fun e => TS (VsAug t op e)) e Nb Hw Lw.
  - destruct H as (A & (va & Fa & Na) & (vb & Fb & Nb) & V). begin_ A H H0 Hi.
    + destruct e as [e|]; cbn [onode] in V; [destruct V as (vc & Fc & Nc)|]; rebuild.
    + destruct I as [<-|[<-|[<-|[]]]].
      * use_field. destruct e as [e|]; cbn [onode] in V.
        -- destruct V as (vc & Fc & Nc). in_exp (fun t => TS (VsAnn t ty (Some e))) t Na Hw Lw.
        -- in_exp (fun t => TS (VsAnn t ty None)) t Na Hw Lw.
      * use_field. destruct e as [e|]; cbn [onode] in V.
        -- destruct V as (vc & Fc & Nc). in_exp (fun ty => TS (VsAnn t ty (Some e))) ty Nb Hw Lw.
        -- in_exp (fun ty => TS (VsAnn t ty None)) ty Nb Hw Lw.
      * destruct e as [e|]; cbn [onode] in V; [destruct V as (vc & Fc & Nc)|].
        -- use_field. in_exp (fun e => TS (VsAnn t ty (Some e))) e Nc Hw Lw.
        -- exfalso. exact (missing_hit _ _ _ _ V Fw Hw).
  - destruct H as (A & V). begin_ A H H0 Hi.
    + destruct e as [e|]; cbn [onode] in V; [destruct V as (vc & Fc & Nc)|]; rebuild.
    + destruct I as [<-|[]]. destruct e as [e|]; cbn [onode] in V; [destruct V as (vc & Fc & Nc)|].
      * use_field. destruct (top_placed e _ _ Nc Hw) as [(L & N)|(e0 & w0 & w0' & T & -> & O & L & N & St)].
        -- left. split; [auto|]. rebuild.
        -- apply (lift _ TE (fun e0 => TS (VsReturn (Some (T e0)))) e0 v v' w0 w0' sort_TE O); [auto| |intros; constructor; apply St|now intros].
           intros a' Na'. apply N in Na'. rebuild.
      * exfalso. exact (missing_hit _ _ _ _ V Fw Hw).
  - destruct H as (A & (va & Fa & Na) & V). begin_ A H H0 Hi.
    + destruct m as [m|]; cbn [onode] in V; [destruct V as (vc & Fc & Nc)|]; rebuild.
    + destruct I as [<-|[<-|[]]].
      * use_field. destruct m as [m|]; cbn [onode] in V.
        -- destruct V as (vc & Fc & Nc). in_exp (fun e => TS (VsAssert e (Some m))) e Na Hw Lw.
        -- in_exp (fun e => TS (VsAssert e None)) e Na Hw Lw.
      * destruct m as [m|]; cbn [onode] in V; [destruct V as (vc & Fc & Nc)|].
        -- use_field. in_exp (fun m => TS (VsAssert e (Some m))) m Nc Hw Lw.
        -- exfalso. exact (missing_hit _ _ _ _ V Fw Hw).
  - destruct H as (A & va & Fa & Na). begin_ A H H0 Hi; [rebuild|]. destruct I as [<-|[]]. use_field. in_exp (fun e => TS (VsRaise e)) e Na Hw Lw.
  - destruct H as (A & va & Fa & Na). begin_ A H H0 Hi; [rebuild|]. destruct I as [<-|[]]. use_field. in_exp (fun e => TS (VsLog e)) e Na Hw Lw.
  - destruct H as (ty & I & A). assert (R : smem ty targets = false /\ part_keys ty = []).
    { cbn in I. repeat (destruct I as [I|I]; [injection I as <- <-; split; reflexivity|]). destruct I. }
    destruct (role_hit v v' ty A (proj1 R) (proj2 R) Hi) as (L & A'). left. split; [exact L|]. cbn [any csnode snode]. exists ty. auto.
  - (* if *)
    destruct H as (A & (va & Fa & Na) & (nb & Fb & Nb) & (no & Fo & No) & Z).
    assert (Z2 : orelse = [] -> no = []). { intros ->. specialize (Z eq_refl). unfold fld in Z, Fo. rewrite Fo in Z. now injection Z. }
    assert (Back : forall e body orelse n no, is_a n "If" -> (exists v, fld n "test" v /\ vnode e v) -> (exists ns, fld n "body" (JArr ns) /\ with_comments csnode body ns) ->
      fld n "orelse" (JArr no) -> with_comments csnode orelse no -> (orelse = [] -> no = []) -> any (TS (VsIf e body orelse)) n).
    { intros e0 b0 o0 n0 no0 B1 B2 B3 B4 B5 B6. cbn [any csnode]. repeat split; try assumption; [exists no0; auto|]. intros Q. now rewrite (B6 Q) in B4. }
    begin_ A H H0 Hi.
    + apply (Back _ _ _ _ no); [carry|carry_child|carry_child|carry|assumption|assumption].
    + destruct I as [<-|[<-|[<-|[]]]]; use_field.
      * apply (lift _ TE (fun e => TS (VsIf e body orelse)) e _ _ _ _ sort_TE (all_placed e _ _ Na Hw) Lw); [|constructor|now intros].
        intros a' Na'. cbn [any] in Na'. apply (Back _ _ _ _ no); [carry|carry_child|carry_child|carry|assumption|assumption].
      * destruct (block_hit _ _ _ _ _ Nb Hw) as (ns' & -> & [(L & G)|(eu & s & ev & w & w2 & -> & Ns & Hs & L & G)]).
        -- left. split; [auto|]. apply (Back _ _ _ _ no); [carry|carry_child|carry_child|carry|assumption|assumption].
        -- apply (lift _ TS (fun s => TS (VsIf e (eu ++ s :: ev) orelse)) s v v' w w2 sort_TS (Forall_mid _ _ _ _ _ IHb _ _ Ns Hs)); [auto| |constructor|now intros].
           intros a' Na'. cbn [any] in Na'. apply G in Na'. apply (Back _ _ _ _ no); [carry|carry_child|carry_child|carry|assumption|assumption].
      * destruct (block_hit _ _ _ _ _ No Hw) as (ns' & -> & [(L & G)|(eu & s & ev & w & w2 & -> & Ns & Hs & L & G)]).
        -- left. split; [auto|]. apply (Back _ _ _ _ ns'); [carry|carry_child|carry_child|carry|assumption|].
           intros Q. apply Z2 in Q. subst no. destruct (hit_list _ _ Hw) as ([|] & ? & ? & ? & Q & _); discriminate Q.
        -- apply (lift _ TS (fun s => TS (VsIf e body (eu ++ s :: ev))) s v v' w w2 sort_TS (Forall_mid _ _ _ _ _ IHo _ _ Ns Hs)); [auto| |constructor|now intros].
           intros a' Na'. cbn [any] in Na'. apply G in Na'. apply (Back _ _ _ _ ns'); [carry|carry_child|carry_child|carry|assumption|].
           intros Q. destruct eu; discriminate Q.
  - (* for *)
    destruct H as (A & (va & Fa & Na) & (vb & Fb & Nb) & (nb & Fc & Nc)). begin_ A H H0 Hi; [rebuild|]. destruct I as [<-|[<-|[<-|[]]]]; use_field.
    + in_exp (fun t => TS (VsFor t it body)) t Na Hw Lw.
    + in_exp (fun it => TS (VsFor t it body)) it Nb Hw Lw.
    + destruct (block_hit _ _ _ _ _ Nc Hw) as (ns' & -> & [(L & G)|(eu & s & ev & w & w2 & -> & Ns & Hs & L & G)]).
      * left. split; [auto|]. rebuild.
      * apply (lift _ TS (fun s => TS (VsFor t it (eu ++ s :: ev))) s v v' w w2 sort_TS (Forall_mid _ _ _ _ _ IHb _ _ Ns Hs)); [auto| |constructor|now intros].
        intros a' Na'. cbn [any] in Na'. apply G in Na'. rebuild.
Qed.

(** ** Definitions *)

Definition with_default (a : varg) : bool := match va_default a with Some _ => true | None => false end.

Lemma defaults_last_same : forall args args', map with_default args' = map with_default args -> defaults_last args -> defaults_last args'.
Proof.
  intros args args' E (a & b & -> & Fa & Fb). rewrite map_app in E. apply map_eq_app in E. destruct E as (a' & b' & -> & Ea & Eb).
  exists a', b'. split; [reflexivity|]. split.
  - clear - Fa Ea. revert a' Ea. induction Fa as [|y a Hy Fa IH]; intros [|y' a'] Ea; try discriminate Ea; constructor; cbn [map] in Ea; injection Ea as E1 E2; [|auto].
    unfold with_default in E1. rewrite Hy in E1. destruct (va_default y'); [discriminate E1|reflexivity].
  - clear - Fb Eb. revert b' Eb. induction Fb as [|y b Hy Fb IH]; intros [|y' b'] Eb; try discriminate Eb; constructor; cbn [map] in Eb; injection Eb as E1 E2; [|auto].
    unfold with_default in E1. destruct (va_default y'); [discriminate|]. destruct (va_default y); [discriminate E1|congruence].
Qed.

Lemma defaults_split : forall args du e dv, defaults args = du ++ e :: dv ->
  exists u y ty v, args = u ++ VArg y ty (Some e) :: v /\ defaults u = du /\ defaults v = dv.
Proof.
  induction args as [|[y ty d] args IH]; intros du e dv E; [destruct du; discriminate E|]. unfold defaults in *. cbn [flat_map va_default] in E. destruct d as [d|].
  - destruct du as [|d2 du]; cbn [app] in E; injection E as E1 E2.
    + subst. exists [], y, ty, args. auto.
    + subst. destruct (IH _ _ _ E2) as (u & y2 & ty2 & v & -> & <- & <-). exists (VArg y ty (Some d2) :: u), y2, ty2, v. auto.
  - destruct (IH _ _ _ E) as (u & y2 & ty2 & v & -> & <- & <-). exists (VArg y ty None :: u), y2, ty2, v. auto.
Qed.

(** The arguments of a function. *)
Definition args_node (args : list varg) (a : json) : Prop :=
  is_a a "arguments" /\ (exists ns, fld a "args" (JArr ns) /\ Forall2 anode args ns) /\
  (exists ds, fld a "defaults" (JArr ds) /\ Forall2 vnode (defaults args) ds) /\ defaults_last args.

Inductive arg_step (e e' : vexp) : list varg -> list varg -> Prop :=
| as_type : forall u y d v, arg_step e e' (u ++ VArg y (Some e) d :: v) (u ++ VArg y (Some e') d :: v)
| as_default : forall u y ty v, arg_step e e' (u ++ VArg y ty (Some e) :: v) (u ++ VArg y ty (Some e') :: v).

Lemma args_placed : forall args v v', args_node args v -> hit v v' ->
  (lean v = false /\ args_node args v') \/
  exists e w w' T, args = T e /\ out (TE e) w w' /\ (lean w = false -> lean v = false) /\ (forall e', vnode e' w' -> args_node (T e') v') /\ (forall e', arg_step e e' (T e) (T e')).
Proof.
  intros args v v' (A & (ns & Fn & Nn) & (ds & Fd & Nd) & DL) Hi.
  destruct (hit_inv _ _ _ A Hi) as [(Q & _)|[(L & K & E)|(k & w & w' & I & Fw & Fw' & Hw & Lw & K & E)]].
  - exfalso. exact (not_target v _ A eq_refl Q).
  - left. split; [exact L|]. repeat split; [carry|carry_child|carry_child|exact DL].
  - cbn in I. destruct I as [<-|[<-|[]]]; use_field.
    + destruct (list_hit _ _ _ _ _ Nn Hw) as (eu & g & ev & u & w & w2 & b & -> & -> & -> & F1 & (Ag & Fy & Ty) & F3 & H2 & L2).
      destruct (hit_inv _ _ _ Ag H2) as [(Q & _)|[(L4 & K4 & E4)|(k4 & w4 & w4' & I4 & Fw4 & Fw4' & Hw4 & Lw4 & K4 & E4)]].
      * exfalso. exact (not_target w _ Ag eq_refl Q).
      * left. split; [auto|]. split; [carry|]. split; [|split; [carry_child|exact DL]]. eexists. split; [exact Fw'|]. apply Forall2_mid; try assumption.
        split; [exact (proj1 K4 _ _ Ag eq_refl)|]. split; [exact (proj1 K4 _ _ Fy eq_refl)|]. destruct (va_type g) as [ty|]; cbn [onode] in *.
        -- destruct Ty as (vt & Ft & Nt). exists vt. split; [unfold fld; rewrite E4; [exact Ft|cbn; tauto]|exact Nt].
        -- exact (keeps_missing _ _ _ K4 Ty).
      * cbn in I4. destruct I4 as [<-|[]]. destruct g as [y [ty|] d]; cbn [va_name va_type va_default onode] in *.
        -- destruct Ty as (vt & Ft & Nt). use_field. right. exists ty, vt, w4', (fun ty => eu ++ VArg y (Some ty) d :: ev). split; [reflexivity|].
           split; [exact (all_placed ty _ _ Nt Hw4)|]. split; [auto|]. split; [|intros; constructor]. intros e' N'. split; [carry|]. split; [|split].
           ++ eexists. split; [exact Fw'|]. apply Forall2_mid; try assumption. split; [exact (proj1 K4 _ _ Ag eq_refl)|]. split; [exact (proj1 K4 _ _ Fy eq_refl)|].
              cbn [va_type onode]. exists w4'. auto.
           ++ exists ds. split; [carry|]. unfold defaults in *. rewrite flat_map_app in *. exact Nd.
           ++ apply (defaults_last_same (eu ++ VArg y (Some ty) d :: ev)); [|exact DL]. now rewrite !map_app.
        -- exfalso. exact (missing_hit _ _ _ _ Ty Fw4 Hw4).
    + destruct (list_hit _ _ _ _ _ Nd Hw) as (du & e & dv & u & w & w2 & b & Ed & -> & -> & F1 & F2 & F3 & H2 & L2).
      destruct (defaults_split _ _ _ _ Ed) as (au & y & ty & av & -> & <- & <-).
      right. exists e, w, w2, (fun e => au ++ VArg y ty (Some e) :: av). split; [reflexivity|]. split; [exact (all_placed e _ _ F2 H2)|]. split; [auto|].
      split; [|intros; constructor]. intros e' N'. split; [carry|]. split; [|split].
      * exists ns. split; [carry|]. destruct (Forall2_app_inv_l _ _ Nn) as (v1 & v2 & G1 & G2 & ->). inversion G2 as [|? g ? r G3 G4]; subst. apply Forall2_mid; assumption.
      * eexists. split; [exact Fw'|]. unfold defaults in *. rewrite flat_map_app. cbn [flat_map va_default app]. apply Forall2_mid; assumption.
      * apply (defaults_last_same (au ++ VArg y ty (Some e) :: av)); [|exact DL]. now rewrite !map_app.
Qed.

Lemma st_args : forall e e' decs f args args' ret body, arg_step e e' args args' ->
  step (TE e) (TE e') (TD (VdFun decs f args ret body)) (TD (VdFun decs f args' ret body)).
Proof. intros e e' decs f args args' ret body [|]; constructor. Qed.

Lemma fun_node : forall decs f args ret body n,
  is_a n "FunctionDef" -> (exists ns, fld n "decorator_list" (JArr ns) /\ Forall2 vnode decs ns) -> fld n "name" (JStr f) ->
  (exists a, fld n "args" a /\ args_node args a) -> onode tnode ret n "returns" -> missing n "doc_string" ->
  (exists ns, fld n "body" (JArr ns) /\ with_comments csnode body ns) -> any (TD (VdFun decs f args ret body)) n.
Proof.
  intros decs f args ret body n H1 H2 H3 (a & H4 & H4a & H4b & H4c & H4d) H5 H6 H7. split; [|exact Logic.I]. split; [|exact H7]. repeat split; try assumption.
  exists a. auto.
Qed.

Ltac carry_opt := first [carry|carry_child].

Definition dplaced (d : vdef) : Prop := forall v v', any (TD d) v -> hit v v' -> out (TD d) v v'.

Lemma flag_kept : forall v v' k b, keeps v v' -> flag_is v k b -> flag_is v' k b.
Proof. intros v v' k b (K1 & K2) [F|(-> & F)]; [left; apply (K1 k _ F eq_refl)|right; auto]. Qed.

Lemma all_dplaced : forall d, dplaced d.
Proof.
  intros [decs f args ret body|y public constant immutable ty e|kw f body|f sigs|kw f body|m alias|m y alias] v v' H0 Hi; pose proof H0 as H; destruct H as (H & NI);
    cbn [cdnode dnode] in H.
  - (* function *)
    destruct H as ((A & (dn & Fd & Nd) & Ff & (an & Fg & Aa & Ab & Ac & Ad) & Nr & Ms) & (nb & Fb & Nb)).
    assert (Na : args_node args an) by (repeat split; assumption). clear Aa Ab Ac Ad.
    begin_ A H H0 Hi.
    + apply fun_node; [carry|carry_child|carry|carry_child| |carry|carry_child].
      destruct ret as [r|]; cbn [onode] in *; [destruct Nr as (vr & Fr & Nr); carry_child|carry].
    + destruct I as [<-|[<-|[<-|[<-|[]]]]].
      * use_field. destruct (list_hit _ _ _ _ _ Nd Hw) as (eu & d & ev & u & w & w2 & b & -> & -> & -> & F1 & F2 & F3 & H2 & L2).
        apply (lift _ TE (fun d => TD (VdFun (eu ++ d :: ev) f args ret body)) d v v' w w2 sort_TE (all_placed d _ _ F2 H2)); [auto| |constructor|now intros].
        intros d' N'. cbn [any] in N'. apply fun_node; [carry| |carry|carry_child| |carry|carry_child].
        -- eexists. split; [exact Fw'|]. apply Forall2_mid; assumption.
        -- destruct ret as [r|]; cbn [onode] in *; [destruct Nr as (vr & Fr & Nr); carry_child|carry].
      * use_field. destruct (args_placed args _ _ Na Hw) as [(L & N)|(e0 & w0 & w0' & T & -> & O & L & N & St)].
        -- left. split; [auto|]. apply fun_node; [carry|carry_child|carry|carry_child| |carry|carry_child].
           destruct ret as [r|]; cbn [onode] in *; [destruct Nr as (vr & Fr & Nr); carry_child|carry].
        -- apply (lift _ TE (fun e => TD (VdFun decs f (T e) ret body)) e0 v v' w0 w0' sort_TE O); [auto| |intros; apply st_args, St|now intros].
           intros e' N'. apply N in N'. apply fun_node; [carry|carry_child|carry|carry_child| |carry|carry_child].
           destruct ret as [r|]; cbn [onode] in *; [destruct Nr as (vr & Fr & Nr); carry_child|carry].
      * destruct ret as [r|]; cbn [onode] in Nr; [|exfalso; exact (missing_hit _ _ _ _ Nr Fw Hw)]. destruct Nr as (vr & Fr & Nr). use_field.
        destruct (top_placed r _ _ Nr Hw) as [(L & N)|(e0 & w0 & w0' & T & -> & O & L & N & St)].
        -- left. split; [auto|]. apply fun_node; [carry|carry_child|carry|carry_child| |carry|carry_child]. cbn [onode]. carry_child.
        -- apply (lift _ TE (fun e => TD (VdFun decs f args (Some (T e)) body)) e0 v v' w0 w0' sort_TE O); [auto| |intros; apply st_fun_ret, St|now intros].
           intros e' N'. apply N in N'. apply fun_node; [carry|carry_child|carry|carry_child| |carry|carry_child]. cbn [onode]. carry_child.
      * use_field. destruct (block_hit _ _ _ _ _ Nb Hw) as (ns' & -> & [(L & G)|(eu & s & ev & w & w2 & -> & Ns & Hs & L & G)]).
        -- left. split; [auto|]. apply fun_node; [carry|carry_child|carry|carry_child| |carry|carry_child].
           destruct ret as [r|]; cbn [onode] in *; [destruct Nr as (vr & Fr & Nr); carry_child|carry].
        -- apply (lift _ TS (fun s => TD (VdFun decs f args ret (eu ++ s :: ev))) s v v' w w2 sort_TS (all_splaced s _ _ Ns Hs)); [auto| |constructor|now intros].
           intros a' Na'. cbn [any] in Na'. apply G in Na'. apply fun_node; [carry|carry_child|carry|carry_child| |carry|carry_child].
           destruct ret as [r|]; cbn [onode] in *; [destruct Nr as (vr & Fr & Nr); carry_child|carry].
  - (* variable *)
    destruct H as (A & (va & Fa & Na) & Fp & Fc & Fi & (vt & Ft & Nt) & V).
    assert (Back : forall y ty e n, keeps v n -> is_a n "VariableDecl" -> (exists v, fld n "target" v /\ vnode y v) -> (exists v, fld n "annotation" v /\ tnode ty v) ->
      onode vnode e n "value" -> any (TD (VdVar y public constant immutable ty e)) n).
    { intros y0 t0 e0 n K B1 B2 B3 B4. split; [|exact Logic.I]. cbn [cdnode dnode]. repeat split; try assumption; eapply flag_kept; eassumption. }
    begin_ A H H0 Hi.
    + apply Back; [exact K|carry|carry_child|carry_child|]. destruct e as [e|]; cbn [onode] in *; [destruct V as (vc & Fc2 & Nc); carry_child|carry].
    + destruct I as [<-|[<-|[<-|[]]]].
      * use_field. apply (lift _ TE (fun y => TD (VdVar y public constant immutable ty e)) y v v' _ w' sort_TE (all_placed y _ _ Na Hw) Lw); [|constructor|now intros].
        intros a' Na'. cbn [any] in Na'. apply Back; [exact K|carry|carry_child|carry_child|]. destruct e as [e|]; cbn [onode] in *; [destruct V as (vc & Fc2 & Nc); carry_child|carry].
      * use_field. destruct (top_placed ty _ _ Nt Hw) as [(L & N)|(e0 & w0 & w0' & T & -> & O & L & N & St)].
        -- left. split; [auto|]. apply Back; [exact K|carry|carry_child|carry_child|]. destruct e as [e|]; cbn [onode] in *; [destruct V as (vc & Fc2 & Nc); carry_child|carry].
        -- apply (lift _ TE (fun e0 => TD (VdVar y public constant immutable (T e0) e)) e0 v v' w0 w0' sort_TE O); [auto| |intros; apply st_var_type, St|now intros].
           intros e' N'. apply N in N'. apply Back; [exact K|carry|carry_child|carry_child|]. destruct e as [e|]; cbn [onode] in *; [destruct V as (vc & Fc2 & Nc); carry_child|carry].
      * destruct e as [e|]; cbn [onode] in V; [|exfalso; exact (missing_hit _ _ _ _ V Fw Hw)]. destruct V as (vc & Fc2 & Nc). use_field.
        apply (lift _ TE (fun e => TD (VdVar y public constant immutable ty (Some e))) e v v' _ w' sort_TE (all_placed e _ _ Nc Hw) Lw); [|constructor|now intros].
        intros a' Na'. cbn [any] in Na'. apply Back; [exact K|carry|carry_child|carry_child|]. cbn [onode]. carry_child.
  - (* struct *)
    destruct H as (-> & A & Ff & (nb & Fb & Nb)). begin_ A H H0 Hi.
    + split; [|exact Logic.I]. cbn [cdnode]. split; [reflexivity|]. split; [carry|]. split; [carry|carry_child].
    + destruct I as [<-|[]]. use_field. destruct (block_hit _ _ _ _ _ Nb Hw) as (ns' & -> & [(L & G)|(eu & s & ev & w & w2 & -> & Ns & Hs & L & G)]).
      * left. split; [auto|]. split; [|exact Logic.I]. cbn [cdnode]. split; [reflexivity|]. split; [carry|]. split; [carry|carry_child].
      * apply (lift _ TS (fun s => TD (VdFields "struct" f (eu ++ s :: ev))) s v v' w w2 sort_TS (all_splaced s _ _ Ns Hs)); [auto| |constructor|now intros].
        intros a' Na'. cbn [any] in Na'. apply G in Na'. split; [|exact Logic.I]. cbn [cdnode]. split; [reflexivity|]. split; [carry|]. split; [carry|carry_child].
  - destruct NI.
  - (* event, enum *)
    destruct H as (Kw & A & Ff & (nb & Fb & Nb)).
    assert (Pk : part_keys (if kw =?s "event" then "EventDef" else "EnumDef") = ["body"]) by (destruct (kw =?s "event"); reflexivity).
    destruct (hit_inv _ _ _ A Hi) as [(-> & ->)|[(L & K & E)|(k & w & w' & I & Fw & Fw' & Hw & Lw & K & E)]]; [apply out_here; exact H0| |]; rewrite Pk in *.
    + left. split; [exact L|]. split; [|exact Logic.I]. cbn [cdnode]. split; [exact Kw|]. split; [carry|]. split; [carry|carry_child].
    + destruct I as [<-|[]]. use_field. destruct (block_hit _ _ _ _ _ Nb Hw) as (ns' & -> & [(L & G)|(eu & s & ev & w & w2 & -> & Ns & Hs & L & G)]).
      * left. split; [auto|]. split; [|exact Logic.I]. cbn [cdnode]. split; [exact Kw|]. split; [carry|]. split; [carry|carry_child].
      * apply (lift _ TS (fun s => TD (VdBlock kw f (eu ++ s :: ev))) s v v' w w2 sort_TS (all_splaced s _ _ Ns Hs)); [auto| |constructor|now intros].
        intros a' Na'. cbn [any] in Na'. apply G in Na'. split; [|exact Logic.I]. cbn [cdnode]. split; [exact Kw|]. split; [carry|]. split; [carry|carry_child].
  - destruct H as (A & Fm & V). begin_ A H H0 Hi; [|destruct I].
    split; [|exact Logic.I]. cbn [cdnode dnode]. split; [carry|]. split; [carry|]. destruct alias as [al|]; cbn [onode] in *; [|carry].
    destruct V as (va & Fa & ->). exists (JStr al). split; [carry|reflexivity].
  - destruct H as (A & Fm & Fy & V). begin_ A H H0 Hi; [|destruct I].
    split; [|exact Logic.I]. cbn [cdnode dnode]. split; [carry|]. split; [destruct m; carry|]. split; [carry|]. destruct alias as [al|]; cbn [onode] in *; [|carry].
    destruct V as (va & Fa & ->). exists (JStr al). split; [carry|reflexivity].
Qed.

(** ** Programs *)

Lemma with_comments_and : forall A (R : A -> json -> Prop) (P : A -> Prop) l ns,
  with_comments R l ns /\ Forall P l <-> with_comments (fun a n => R a n /\ P a) l ns.
Proof.
  intros A R P l. induction l as [|a l IH]; intros ns; cbn [with_comments].
  - split; [tauto|]. intros C. split; [exact C|constructor].
  - split.
    + intros ((cs & n & more & E & C & N & G) & F). inversion F; subst. exists cs, n, more. repeat split; try assumption. apply IH. auto.
    + intros (cs & n & more & E & C & (N & Pa) & G). apply IH in G. destruct G as (G1 & G2). split; [exists cs, n, more; auto|constructor; assumption].
Qed.

Lemma program_placed : forall l v v', any (TP l) v -> hit v v' -> out (TP l) v v'.
Proof.
  intros l v v' H0 Hi. pose proof H0 as ((A & Ms & (nb & Fb & Nb)) & NI).
  assert (Back : forall l n, is_a n "Module" -> missing n "doc_string" -> (exists ns, fld n "body" (JArr ns) /\ with_comments (fun d n => cdnode d n /\ no_interface d) l ns) -> any (TP l) n).
  { intros l0 n B1 B2 (ns & B3 & B4). apply with_comments_and in B4. destruct B4 as (B4 & B5). split; [|exact B5]. split; [exact B1|]. split; [exact B2|]. exists ns. auto. }
  pose proof (proj1 (with_comments_and _ cdnode no_interface l nb) (conj Nb NI)) as N. begin_ A H H0 Hi.
  - apply Back; [carry|carry|carry_child].
  - destruct I as [<-|[]]. use_field. destruct (block_hit _ _ _ _ _ N Hw) as (ns' & -> & [(L & G)|(eu & d & ev & w & w2 & -> & Ns & Hs & L & G)]).
    + left. split; [auto|]. apply Back; [carry|carry|carry_child].
    + apply (lift _ TD (fun d => TP (eu ++ d :: ev)) d v v' w w2 sort_TD (all_dplaced d _ _ Ns Hs)); [auto| |constructor|now intros].
      intros a' Na'. cbn [any] in Na'. apply G in Na'. apply Back; [carry|carry|carry_child].
Qed.
End Place.

(** In a lean tree of a program the replaced node stands for a part of it. *)
Lemma replaced_part : forall l v p x x', cprogram_node l v -> Forall no_interface l -> lean v = true ->
  subtree p v = Some x -> (exists ty, is_a x ty /\ In ty targets) ->
  exists t0, any t0 x /\ forall t0', sort t0 t0' -> any t0' x' ->
    exists l', cprogram_node l' (set_subtree p x' v) /\ Forall no_interface l' /\ chain t0 t0' (TP l) (TP l').
Proof.
  intros l v p x x' C NI L S Tx. destruct (program_placed x x' Tx l v _ (conj C NI) (hit_at x x' p v S)) as [(L2 & _)|(t0 & H0 & H)]; [congruence|].
  exists t0. split; [exact H0|]. intros t0' So H1. destruct (H t0' So H1) as (t' & S' & H2 & Ch). destruct t' as [| | |l']; try destruct S'.
  destruct H2 as (H2 & H3). exists l'. auto.
Qed.
