(** The Solidity operators and the comment inserter keep nodes regular and add
    no remark but the comment. *)
From Coq Require Import String Ascii List NArith ZArith Arith Bool Lia.
From Verif Require Import Base Json JsonFacts Rng MutationType Permissions Traverse OpCommon SolMutators Comments Language
  SpecTree SpecOps SpecTotal SpecPlain
  TraverseFacts TraverseFacts2 TraverseFacts3 CommentFacts OpFacts SolFacts PaceFacts PlainFacts PlainSol KeepFacts.
Import ListNotations.
Open Scope list_scope.
Open Scope string_scope.

Definition sroot (R : string -> string -> Prop) (x : json) : Prop :=
  sol_regular x /\ forall t next, sol_remark x t next -> R t next.

Definition srel : list string := ["nodeType"; "names"; "arguments"; "options"; "text"; "documentation"].

Inductive salike : json -> json -> Prop :=
| sa_same a : salike a a
| sa_obj a b : is_object a = true -> is_object b = true -> salike a b
| sa_arr l l' : length l = length l' -> (all_strings l -> all_strings l') -> salike (JArr l) (JArr l').

(** Unfold the successful branch of a computation. *)
Ltac opens H :=
  repeat match type of H with
  | bind ?a _ = Ok _ => destruct a as [? | ? | ? |] eqn:?; cbn [bind] in H; try discriminate H
  | (let (_, _) := ?p in _) = _ => first [ is_var p; destruct p | destruct p eqn:? ]
  | (if ?b then _ else _) = _ => destruct b eqn:?; try discriminate H
  | match ?o with _ => _ end = _ => destruct o eqn:?; try discriminate H
  end.

Section Keep.
Variable R : string -> string -> Prop.

Let P := sroot R.

Lemma sroot_free n : sol_root n -> P n.
Proof. intros [H1 H2]. split; [ exact H1 |]. intros t next H. destruct (H2 t next H). Qed.

Lemma plain_keep n : sol_plain n -> everywhere P n.
Proof. intros H q x Hx. apply sroot_free. exact (H q x Hx). Qed.

Lemma skeep_scalar n : children n = [] -> oget n "nodeType" = None -> everywhere P n.
Proof. intros H1 H2. apply plain_keep, sol_plain_scalar; assumption. Qed.

Lemma skeep_null : everywhere P JNull.
Proof. apply skeep_scalar; reflexivity. Qed.

Lemma skeep_list l : (forall v, In v l -> everywhere P v) -> everywhere P (JArr l).
Proof. intro H. apply ev_node; [ apply sroot_free, sol_root_bare; reflexivity | exact H ]. Qed.

Lemma sroot_fields n n' : (forall k, In k srel -> oget n' k = oget n k) -> P n -> P n'.
Proof.
  intros H [H1 H2].
  assert (Ho : forall k v, In k srel -> has_field n' k v -> has_field n k v).
  { unfold has_field. intros k v Hk Hv. rewrite (H k Hk) in Hv. exact Hv. }
  assert (Ht : forall s, is_sol s n' -> is_sol s n) by (intros s; apply Ho; now left).
  split.
  - destruct H1 as [A B]. split; intro T; apply Ht in T; intros ? ? X Y; (apply Ho in X; [| cbn; tauto ]);
      (apply Ho in Y; [| cbn; tauto ]); [ exact (A T _ _ X Y) | exact (B T _ _ X Y) ].
  - intros t next Hr. apply H2. destruct Hr as [t T X | s t T X Y | t T X]; apply Ht in T; apply Ho in X; cbn; try tauto.
    + apply Sol_comment; assumption.
    + eapply Sol_documentation; eassumption.
    + apply Sol_assembly; assumption.
Qed.

Lemma sroot_but k n n' : ~ In k srel -> but k n n' -> P n -> P n'.
Proof. intros Hk H. apply sroot_fields. intros k' Hk'. apply H. intros ->. exact (Hk Hk'). Qed.

Lemma skeep_but k v n n' : ~ In k srel -> but k n n' -> everywhere P n -> everywhere P v ->
  (forall x, In x (children n') -> x = v \/ x = JNull \/ In x (children n)) -> everywhere P n'.
Proof.
  intros Hk Hb Hn Hv Hc. apply ev_node; [ eapply sroot_but; [ exact Hk | exact Hb | exact (ev_root _ _ Hn) ] |].
  intros x Hx. destruct (Hc x Hx) as [-> | [-> | H]]; [ exact Hv | apply skeep_null | exact (ev_child _ _ _ Hn H) ].
Qed.

Lemma skeep_set n k v : plain_key k = true -> ~ In k srel -> everywhere P n -> everywhere P v ->
  everywhere P (set_key n k v).
Proof.
  intros Hp Hk Hn Hv. eapply skeep_but; [ exact Hk | apply but_set; exact Hp | exact Hn | exact Hv |].
  intros x Hx. apply children_set_key in Hx; [| exact Hp ]. destruct Hx; [ now left | right; now right ].
Qed.

Lemma skeep_take_set n k w n0 v : plain_key k = true -> ~ In k srel -> take_key n k = Some (w, n0) ->
  everywhere P n -> everywhere P v -> everywhere P (set_key n0 k v).
Proof.
  intros Hp Hk Ht Hn Hv. eapply skeep_but; [ exact Hk | eapply but_take_set; eassumption | exact Hn | exact Hv |].
  intros x Hx. eapply children_take_set; eassumption.
Qed.

Lemma skeep_set_str n k s : plain_key k = true -> ~ In k srel -> everywhere P n -> everywhere P (set_str n k s).
Proof. intros Hp Hk Hn. unfold set_str. apply skeep_set; try assumption. apply skeep_scalar; reflexivity. Qed.

Lemma sroot_args n n' l l' : but "arguments" n n' -> oget n "arguments" = Some (JArr l) ->
  oget n' "arguments" = Some (JArr l') -> length l' = length l -> P n -> P n'.
Proof.
  intros Hb El El' Hlen [[A B] H2].
  assert (Ho : forall k v, k <> "arguments" -> has_field n' k v -> has_field n k v).
  { unfold has_field. intros k v Hk Hv. rewrite (Hb k Hk) in Hv. exact Hv. }
  assert (Ht : forall s, is_sol s n' -> is_sol s n) by (intros s; apply Ho; discriminate).
  split; [ split |].
  - intros T names args Hn Ha. apply Ht in T. apply Ho in Hn; [| discriminate ].
    unfold has_field in Ha. rewrite El' in Ha. injection Ha as <-. rewrite Hlen. exact (A T _ _ Hn El).
  - intros T names opts Hn Ha. apply Ht in T. apply Ho in Hn; [| discriminate ]. apply Ho in Ha; [| discriminate ].
    exact (B T _ _ Hn Ha).
  - intros t next Hr. apply H2.
    destruct Hr as [t T X | s t T X Y | t T X]; apply Ht in T; (apply Ho in X; [| discriminate ]).
    + apply Sol_comment; assumption.
    + eapply Sol_documentation; eassumption.
    + apply Sol_assembly; assumption.
Qed.

Lemma skeep_args n n' l l' : but "arguments" n n' -> oget n "arguments" = Some (JArr l) ->
  oget n' "arguments" = Some (JArr l') -> length l' = length l -> (forall v, In v l' -> everywhere P v) ->
  (forall x, In x (children n') -> x = JArr l' \/ x = JNull \/ In x (children n)) ->
  everywhere P n -> everywhere P n'.
Proof.
  intros Hb El El' Hlen Hl Hc Hn. apply ev_node.
  - eapply sroot_args; [ exact Hb | exact El | exact El' | exact Hlen | exact (ev_root _ _ Hn) ].
  - intros x Hx. destruct (Hc x Hx) as [-> | [-> | H]];
      [ apply skeep_list; exact Hl | apply skeep_null | exact (ev_child _ _ _ Hn H) ].
Qed.

(** ** Built nodes *)

Lemma skeep_tuple l : (forall v, In v l -> everywhere P v) -> everywhere P (sol_tuple_node l).
Proof.
  intro Hl. unfold sol_tuple_node. apply skeep_set; [ reflexivity | cbn; intuition discriminate | | apply skeep_list; exact Hl ].
  apply plain_keep. apply ev_node; [ apply (sol_root_type "TupleExpression"); [ reflexivity | cbn; intuition discriminate ] |].
  intros v Hv. apply children_mkobj in Hv. cbn [map snd] in Hv.
  repeat (destruct Hv as [<- | Hv]; [ apply sol_plain_scalar; reflexivity |]). destruct Hv.
Qed.

Lemma skeep_unary op b x : everywhere P x -> everywhere P (sol_unary_node op b x).
Proof.
  intro Hx. unfold sol_unary_node. apply skeep_set; [ reflexivity | cbn; intuition discriminate | | exact Hx ].
  apply plain_keep. apply ev_node; [ apply (sol_root_type "UnaryOperation"); [ reflexivity | cbn; intuition discriminate ] |].
  intros v Hv. apply children_mkobj in Hv. cbn [map snd] in Hv.
  repeat (destruct Hv as [<- | Hv]; [ apply sol_plain_scalar; reflexivity |]). destruct Hv.
Qed.

Lemma skeep_unchecked l id : (forall v, In v l -> everywhere P v) -> everywhere P (sol_unchecked_node l id).
Proof.
  intro Hl. unfold sol_unchecked_node.
  apply skeep_set; [ reflexivity | cbn; intuition discriminate | | apply skeep_scalar; reflexivity ].
  apply skeep_set; [ reflexivity | cbn; intuition discriminate | | apply skeep_list; exact Hl ].
  apply plain_keep. apply ev_node; [ apply (sol_root_type "UncheckedBlock"); [ reflexivity | cbn; intuition discriminate ] |].
  intros v Hv. apply children_mkobj in Hv. cbn [map snd] in Hv.
  repeat (destruct Hv as [<- | Hv]; [ apply sol_plain_scalar; reflexivity |]). destruct Hv.
Qed.

Lemma skeep_block l : (forall v, In v l -> everywhere P v) -> everywhere P (sol_block_node l).
Proof.
  intro Hl. unfold sol_block_node.
  apply skeep_set; [ reflexivity | cbn; intuition discriminate | | apply skeep_list; exact Hl ].
  apply plain_keep. apply ev_node; [ apply (sol_root_type "Block"); [ reflexivity | cbn; intuition discriminate ] |].
  intros v Hv. apply children_mkobj in Hv. cbn [map snd] in Hv.
  repeat (destruct Hv as [<- | Hv]; [ apply sol_plain_scalar; reflexivity |]). destruct Hv.
Qed.

(** A statement that has been commented out is no remark. *)
Lemma skeep_comment_node x : everywhere P x -> everywhere P (sol_comment_node x).
Proof.
  intro Hx. unfold sol_comment_node. cbv zeta.
  apply skeep_set; [ reflexivity | cbn; intuition discriminate | | apply skeep_scalar; destruct (get_int x "id") as [[] |]; reflexivity ].
  apply skeep_set; [ reflexivity | cbn; intuition discriminate | | exact Hx ].
  apply ev_node.
  - split; [ split; intro H; discriminate H |]. intros t next H. destruct H as [t H X | s t H X | t H X];
      [ discriminate X | discriminate H | discriminate H ].
  - intros v Hv. apply children_mkobj in Hv. cbn [map snd] in Hv.
    repeat (destruct Hv as [<- | Hv]; [ apply skeep_scalar; reflexivity |]). destruct Hv.
Qed.

Lemma skeep_require x : everywhere P x -> everywhere P (sol_require_node x).
Proof.
  intro Hx.
  assert (Ht : forall a b, everywhere P (mkobj [ ("typeIdentifier", JStr a); ("typeString", JStr b) ])).
  { intros a b. apply ev_node; [ apply sroot_free, sol_root_bare; reflexivity |]. intros v Hv.
    apply children_mkobj in Hv. cbn [map snd] in Hv.
    repeat (destruct Hv as [<- | Hv]; [ apply skeep_scalar; reflexivity |]). destruct Hv. }
  apply ev_node.
  - apply sroot_free, (sol_root_type "UnaryOperation"); [ reflexivity | cbn; intuition discriminate ].
  - intros v Hv. apply children_mkobj in Hv. cbn [map snd] in Hv.
    repeat (destruct Hv as [<- | Hv]; [ first [ apply Ht | apply skeep_scalar; reflexivity | idtac ] |]);
      [| destruct Hv ].
    apply ev_node.
    + apply sroot_free, (sol_root_type "TupleExpression"); [ reflexivity | cbn; intuition discriminate ].
    + intros v Hv. apply children_mkobj in Hv. cbn [map snd] in Hv.
      repeat (destruct Hv as [<- | Hv]; [ first [ apply Ht | apply skeep_scalar; reflexivity | idtac ] |]);
        [| destruct Hv ].
      apply skeep_list. intros v [<- | []]. exact Hx.
Qed.

(** ** The operators *)

Lemma skeep_elem n k l v : everywhere P n -> oget n k = Some (JArr l) -> In v l -> everywhere P v.
Proof. apply ev_elem. Qed.

Lemma vec_swap_subset {A} i j (l l' : list A) x y v : vec_swap i j l = Ok (l', x, y) -> In v l' -> In v l.
Proof.
  intro H. pose proof (vec_swap_In _ _ _ _ _ _ H) as [Hx Hy]. unfold vec_swap in H. cbv zeta in H. opens H.
  injection H as <- <- <-. intro Hv.
  assert (G : forall k (m : list A), In v (remove_at k m) -> In v m).
  { intros k m G. unfold remove_at in G. apply in_app_or in G. destruct G as [G | G].
    - rewrite <- (firstn_skipn k m). apply in_or_app. now left.
    - rewrite <- (firstn_skipn (S k) m). apply in_or_app. now right. }
  assert (I : forall k z (m : list A), In v (insert_at k z m) -> v = z \/ In v m).
  { intros k z m I. unfold insert_at in I. apply in_app_or in I. destruct I as [I | [I | I]].
    - right. rewrite <- (firstn_skipn k m). apply in_or_app. now left.
    - left. symmetry. exact I.
    - right. rewrite <- (firstn_skipn k m). apply in_or_app. now right. }
  apply I in Hv. destruct Hv as [-> | Hv]; [ exact Hy |]. apply I in Hv. destruct Hv as [-> | Hv]; [ exact Hx |].
  apply G in Hv. apply G in Hv. exact Hv.
Qed.

Ltac odd := cbn; intuition discriminate.

Lemma skeep_binop e t ops fuel n r d : everywhere P n -> sol_binop_mutate e t ops fuel n r = Ok d -> everywhere P (md_node d).
Proof.
  intros Hn H. unfold sol_binop_mutate in H. opens H; injection H as <-; cbn [done md_node]; [| exact Hn ].
  apply skeep_set_str; [ reflexivity | odd | exact Hn ].
Qed.

Lemma skeep_unop e fuel n r d : everywhere P n -> sol_unary_mutate e fuel n r = Ok d -> everywhere P (md_node d).
Proof.
  intros Hn H. unfold sol_unary_mutate in H. cbv zeta in H. opens H; injection H as <-; cbn [done md_node];
    apply skeep_set_str; try reflexivity; try odd; exact Hn.
Qed.

Lemma skeep_assign e fuel n r d : everywhere P n -> sol_assign_mutate e fuel n r = Ok d -> everywhere P (md_node d).
Proof.
  intros Hn H. unfold sol_assign_mutate in H. cbv zeta in H.
  destruct (sol_assign_type n) as [ts |]; [| discriminate H ]. destruct (oget n "rightHandSide") as [rhs |]; [| discriminate H ].
  destruct (e_pp e rhs); cbn [bind] in H; try discriminate H.
  destruct (sol_assign_value ts r) as [[[v bytes] r'] | | |] eqn:Ev; cbn [bind] in H; try discriminate H.
  opens H. injection H as <-. cbn [done md_node]. destruct v as [v |]; [| exact Hn ].
  apply skeep_set; [ reflexivity | odd | exact Hn |]. unfold sol_assign_value in Ev. opens Ev; injection Ev as <- _ _;
    apply plain_keep; first [ apply sol_plain_int | apply sol_plain_bool ].
Qed.

Lemma skeep_delete e fuel n r d : everywhere P n -> sol_delete_mutate e fuel n r = Ok d -> everywhere P (md_node d).
Proof.
  intros Hn H. unfold sol_delete_mutate in H. destruct (take_key n "statements") as [[w n0] |] eqn:Et; [| discriminate H ].
  destruct w; try discriminate H. cbv zeta in H. opens H. injection H as <-. cbn [done md_node].
  pose proof (take_key_get _ "statements" _ _ eq_refl Et) as Hl.
  eapply skeep_take_set; [ reflexivity | odd | exact Et | exact Hn |]. apply skeep_list. intros v Hv.
  apply in_vec_put in Hv. destruct Hv as [-> | Hv]; [| exact (ev_elem _ _ _ _ _ Hn Hl Hv) ].
  apply skeep_comment_node. eapply ev_elem; [ exact Hn | exact Hl |]. eapply vec_get_In; eassumption.
Qed.

Lemma skeep_call e fuel n r d : everywhere P n -> sol_call_mutate e fuel n r = Ok d ->
  everywhere P (md_node d) /\ exists l, oget n "arguments" = Some (JArr l) /\ In (md_node d) l.
Proof.
  intros Hn H. unfold sol_call_mutate in H. destruct (arr_of n "arguments") as [l |] eqn:El; [| discriminate H ].
  apply arr_of_spec in El. opens H. injection H as <-. cbn [done md_node].
  match goal with H : vec_get _ _ = Ok _ |- _ => apply vec_get_In in H end.
  split; [ eapply ev_elem; eassumption | exists l; split; assumption ].
Qed.

Lemma groups_place order l g k i v : vec_get (big_groups order (arg_groups l)) k = Ok g -> In (i, v) g -> i < length l.
Proof.
  intros Eg Hi. apply vec_get_In in Eg. unfold big_groups in Eg.
  apply in_flat_map in Eg. destruct Eg as (key & _ & Hg).
  destruct (assoc key (arg_groups l)) as [g'|] eqn:Ea; [|destruct Hg].
  destruct (Nat.leb 2 (length g')); [|destruct Hg]. destruct Hg as [->|[]].
  apply assoc_In in Ea. destruct (arg_groups_ok l) as (b & Hok). rewrite Forall_forall in Hok.
  destruct (Hok _ Ea) as (Hall & _). cbn [snd] in Hall. rewrite Forall_forall in Hall.
  destruct (Hall _ Hi) as (A1 & _). cbn [fst snd] in A1. apply nth_error_Some. rewrite A1. discriminate.
Qed.

Lemma skeep_swapargs e fuel n r d : everywhere P n -> sol_swapargs_mutate e fuel n r = Ok d -> everywhere P (md_node d).
Proof.
  intros Hn H. unfold sol_swapargs_mutate in H. destruct (take_key n "arguments") as [[w n0] |] eqn:Et; [| discriminate H ].
  destruct w; try discriminate H. cbv zeta in H. opens H. injection H as <-. cbn [done md_node].
  pose proof (take_key_get _ "arguments" _ _ eq_refl Et) as Hl.
  match goal with |- everywhere P (set_key _ _ (JArr ?l')) => set (m := l') end.
  assert (Hm : length m = length l /\ forall v, In v m -> everywhere P v).
  { match goal with H1 : vec_get (big_groups _ _) _ = Ok ?g, H2 : vec_get ?g 0 = Ok (?i1, ?a1), H3 : vec_get ?g 1 = Ok (?i2, ?a2) |- _ =>
      apply vec_get_In in H2; apply vec_get_In in H3;
      pose proof (groups_In _ _ _ _ _ _ H1 H2) as G1; pose proof (groups_In _ _ _ _ _ _ H1 H3) as G2;
      assert (L1 : i1 < length l) by (eapply groups_place; [ exact H1 | exact H2 ]);
      assert (L2 : i2 < length l) by (eapply groups_place; [ exact H1 | exact H3 ])
    end.
    subst m. rewrite !vec_put_replace by (rewrite ?vec_put_replace, ?length_replace_at by assumption; assumption).
    split; [ rewrite !length_replace_at; reflexivity |]. intros v Hv.
    apply in_replace_at in Hv. destruct Hv as [-> | Hv]; [ eapply ev_elem; eassumption |].
    apply in_replace_at in Hv. destruct Hv as [-> | Hv]; eapply ev_elem; eassumption. }
  destruct Hm as [Hm1 Hm2].
  eapply skeep_args; [ eapply but_take_set; [ reflexivity | exact Et ] | exact Hl | | exact Hm1 | exact Hm2 | | exact Hn ].
  - apply set_get; [ reflexivity | eapply take_object; [| exact Et ]; reflexivity ].
  - intros x Hx. eapply children_take_set; [| exact Et | exact Hx ]. reflexivity.
Qed.

Lemma skeep_if e fuel n r d : everywhere P n -> sol_if_mutate e fuel n r = Ok d -> everywhere P (md_node d).
Proof.
  intros Hn H. unfold sol_if_mutate in H. destruct (oget n "condition") as [c |] eqn:Ec; [| discriminate H ].
  destruct (e_pp e c); cbn [bind] in H; try discriminate H.
  destruct (next_mod 3 r) as [[k r'] | | |]; cbn [bind] in H; try discriminate H. cbv zeta in H.
  destruct (oget _ "condition") as [c' |] eqn:Ec' in H; [| discriminate H ].
  destruct (e_pp e c'); cbn [bind] in H; try discriminate H. injection H as <-. cbn [done md_node]. clear Ec'.
  assert (Hneg : everywhere P match take_key n "condition" with
                   | Some (c, n0) => set_key n0 "condition" (sol_unary_node "!" true (sol_tuple_node [c]))
                   | None => n
                   end).
  { destruct (take_key n "condition") as [[w n0] |] eqn:Et; [| exact Hn ].
    eapply skeep_take_set; [ reflexivity | odd | exact Et | exact Hn |]. apply skeep_unary, skeep_tuple.
    intros v [<- | []]. eapply ev_field; [ exact Hn | eapply take_key_get; [| exact Et ]; reflexivity ]. }
  assert (Hb : forall b, everywhere P (set_key n "condition" (sol_bool_node b))).
  { intro b. apply skeep_set; [ reflexivity | odd | exact Hn | apply plain_keep, sol_plain_bool ]. }
  destruct k as [| [p | p |]]; [ apply Hb | exact Hneg | exact Hneg | apply Hb ].
Qed.

Lemma skeep_int e fuel n r d : everywhere P n -> sol_int_mutate e fuel n r = Ok d -> everywhere P (md_node d).
Proof.
  intros Hn H. unfold sol_int_mutate in H.
  destruct (next_mod 3 r) as [[k r1] | | |]; cbn [bind] in H; try discriminate H.
  match type of H with bind ?a _ = _ => destruct a as [[[[n' old] new] r2] | | |] eqn:E; cbn [bind] in H; try discriminate H end.
  injection H as <-. cbn [done md_node].
  assert (G : forall s, everywhere P (set_str n "value" s)).
  { intro s. apply skeep_set_str; [ reflexivity | odd | exact Hn ]. }
  opens E; injection E as <- _ _ _; first [ apply G | exact Hn ].
Qed.

Lemma skeep_swapop e fuel n r d : everywhere P n -> sol_swapop_mutate e fuel n r = Ok d -> everywhere P (md_node d).
Proof.
  intros Hn H. unfold sol_swapop_mutate in H.
  destruct (take_key n "leftExpression") as [[a n0] |] eqn:Ea; [| discriminate H ].
  destruct (take_key n0 "rightExpression") as [[b n1] |] eqn:Eb; [| discriminate H ].
  opens H. injection H as <-. cbn [done md_node].
  pose proof (take_key_get n "leftExpression" a n0 eq_refl Ea) as Ha. pose proof (take_key_get n0 "rightExpression" b n1 eq_refl Eb) as Hb.
  assert (H0 : everywhere P n0).
  { eapply skeep_but with (v := JNull); [ | exact (but_take n "leftExpression" _ _ eq_refl Ea) | exact Hn | apply skeep_null |]; [ odd |].
    intros x Hx. right. eapply children_take_key; [| exact Ea | exact Hx ]. reflexivity. }
  assert (H1 : everywhere P n1).
  { eapply skeep_but with (v := JNull); [ | exact (but_take n0 "rightExpression" _ _ eq_refl Eb) | exact H0 | apply skeep_null |]; [ odd |].
    intros x Hx. right. eapply children_take_key; [| exact Eb | exact Hx ]. reflexivity. }
  apply skeep_set; [ reflexivity | odd | | exact (ev_field _ _ _ _ Hn Ha) ].
  apply skeep_set; [ reflexivity | odd | exact H1 | eapply ev_field; [ exact H0 | exact Hb ]].
Qed.

Lemma skeep_swaplines e fuel n r d : everywhere P n -> sol_swaplines_mutate e fuel n r = Ok d -> everywhere P (md_node d).
Proof.
  intros Hn H. unfold sol_swaplines_mutate in H. destruct (take_key n "statements") as [[w n0] |] eqn:Et; [| discriminate H ].
  destruct w; try discriminate H. opens H. injection H as <-. cbn [done md_node].
  pose proof (take_key_get _ "statements" _ _ eq_refl Et) as Hl.
  eapply skeep_take_set; [ reflexivity | odd | exact Et | exact Hn |]. apply skeep_list. intros v Hv.
  eapply ev_elem; [ exact Hn | exact Hl |]. eapply vec_swap_subset; eassumption.
Qed.

Lemma set_key_at_upd n k i v : set_key_at n k i v = upd_array n k (replace_at i v).
Proof. reflexivity. Qed.

Lemma upd_array_set n k f l : plain_key k = true -> oget n k = Some (JArr l) -> upd_array n k f = set_key n k (JArr (f l)).
Proof.
  intros Hp H. rewrite upd_array_plain, set_key_plain by exact Hp. destruct n; try discriminate H. cbn [oget] in H.
  rewrite H. reflexivity.
Qed.

Lemma set_set n k a b : plain_key k = true -> oget n k <> None -> set_key (set_key n k a) k b = set_key n k b.
Proof.
  intros Hp Ho. rewrite !set_key_plain by exact Hp. destruct n; try reflexivity. cbn [oget] in Ho.
  destruct (assoc k o) as [w |] eqn:E; [| contradiction ].
  rewrite (assoc_obj_set_same k a w o E). f_equal. clear E Ho. induction o as [| [k0 y] o IH]; [ reflexivity |].
  cbn [obj_set]. destruct (String.eqb k k0) eqn:E; cbn [obj_set]; rewrite E; [ reflexivity | rewrite IH; reflexivity ].
Qed.

Lemma skeep_require_op e fuel n r d : everywhere P n -> sol_require_mutate e fuel n r = Ok d -> everywhere P (md_node d).
Proof.
  intros Hn H. unfold sol_require_mutate in H. destruct (arr_of n "arguments") as [[| a l] |] eqn:El; try discriminate H.
  apply arr_of_spec in El. cbv zeta in H. opens H. injection H as <-. cbn [done md_node].
  rewrite !set_key_at_upd. rewrite (upd_array_set n "arguments" _ _ eq_refl El). cbn [replace_at].
  pose proof (oget_object _ _ _ El) as Hob.
  rewrite (upd_array_set _ "arguments" _ (JNull :: l) eq_refl) by (apply set_get; [ reflexivity | exact Hob ]).
  cbn [replace_at]. rewrite set_set by (reflexivity || (rewrite El; discriminate)).
  eapply skeep_args with (l := a :: l) (l' := sol_require_node a :: l); [ | exact El | | reflexivity | | | exact Hn ].
  - apply but_set; reflexivity.
  - apply set_get; [ reflexivity | exact Hob ].
  - intros v [<- | Hv]; [ apply skeep_require |]; (eapply ev_elem; [ exact Hn | exact El |]); [ now left | now right ].
  - intros x Hx. apply children_set_key in Hx; [| reflexivity ]. destruct Hx as [-> | Hx]; [ now left | right; now right ].
Qed.

Lemma skeep_unchecked_op e fuel n r d : everywhere P n -> sol_unchecked_mutate e fuel n r = Ok d -> everywhere P (md_node d).
Proof.
  intros Hn H. unfold sol_unchecked_mutate in H. destruct (take_key n "statements") as [[w n0] |] eqn:Et; [| discriminate H ].
  destruct w; try discriminate H. cbv zeta in H. opens H; injection H as <-; cbn [done md_node];
  pose proof (take_key_get _ "statements" _ _ eq_refl Et) as Hl;
  (eapply skeep_take_set; [ reflexivity | odd | exact Et | exact Hn |]); apply skeep_list; intros v Hv;
  apply in_vec_put in Hv; (destruct Hv as [-> | Hv]; [| exact (ev_elem _ _ _ _ _ Hn Hl Hv) ]);
  apply skeep_unchecked; intros v [<- | []]; (eapply ev_elem; [ exact Hn | exact Hl |]); eapply vec_get_In; eassumption.
Qed.

Lemma skeep_delegate e fuel n r d : everywhere P n -> sol_delegate_mutate e fuel n r = Ok d -> everywhere P (md_node d).
Proof.
  intros Hn H. injection H as <-. cbn [done md_node]. apply skeep_set_str; [ reflexivity | odd | exact Hn ].
Qed.

Lemma sol_keep e t m fuel n r d : sol_mutator_for e t = Some m -> everywhere P n -> mu_mutate m fuel n r = Ok d ->
  everywhere P (md_node d).
Proof.
  intros Hm Hn H. destruct t as [[] | []]; injection Hm as <-;
    first [ exact (skeep_binop _ _ _ _ _ _ _ Hn H) | exact (skeep_unop _ _ _ _ _ Hn H) | exact (skeep_assign _ _ _ _ _ Hn H)
          | exact (skeep_delete _ _ _ _ _ Hn H) | exact (proj1 (skeep_call _ _ _ _ _ Hn H)) | exact (skeep_swapargs _ _ _ _ _ Hn H)
          | exact (skeep_if _ _ _ _ _ Hn H) | exact (skeep_int e fuel n r d Hn H) | exact (skeep_swapop _ _ _ _ _ Hn H)
          | exact (skeep_swaplines _ _ _ _ _ Hn H) | exact (skeep_require_op _ _ _ _ _ Hn H)
          | exact (skeep_unchecked_op _ _ _ _ _ Hn H) | exact (skeep_delegate e fuel n r d Hn H) ].
Qed.

(** ** Comment insertion *)

Lemma skeep_insert_in_array idm id c l : everywhere P c -> (forall v, In v l -> everywhere P v) ->
  forall v, In v (fst (insert_in_array idm id c l)) -> everywhere P v.
Proof.
  intros Hc. induction l as [| x l IH]; intros Hl v Hv; cbn [insert_in_array] in Hv; [ destruct Hv |].
  destruct (has_id idm id x); [ destruct Hv as [<- | Hv]; [ exact Hc | exact (Hl v Hv) ] |].
  destruct (insert_in_array idm id c l) as [l' b]. destruct Hv as [<- | Hv]; [ apply Hl; now left |].
  apply IH; [ intros w Hw; apply Hl; now right | exact Hv ].
Qed.

Lemma skeep_upd n k f : plain_key k = true -> ~ In k srel -> everywhere P n ->
  (forall l, oget n k = Some (JArr l) -> forall v, In v (f l) -> everywhere P v) -> everywhere P (upd_array n k f).
Proof.
  intros Hp Hk Hn Hf. destruct (oget n k) as [w |] eqn:E.
  - destruct w; try (rewrite upd_array_plain by exact Hp; destruct n; try exact Hn; cbn [oget] in E; rewrite E; exact Hn).
    rewrite (upd_array_set n k f l Hp E). apply skeep_set; [ exact Hp | exact Hk | exact Hn |].
    apply skeep_list. exact (Hf l eq_refl).
  - rewrite upd_array_plain by exact Hp. destruct n; try exact Hn. cbn [oget] in E. rewrite E. exact Hn.
Qed.

Lemma get_array_oget n k l : plain_key k = true -> get_array n k = Some l -> oget n k = Some (JArr l).
Proof.
  intros Hp H. unfold get_array in H. rewrite kget_plain in H by exact Hp. destruct (oget n k) as [w |]; [| discriminate H ].
  destruct w; try discriminate H. injection H as ->. reflexivity.
Qed.

Lemma skeep_insert_under idm k id c n : plain_key k = true -> ~ In k srel -> everywhere P c -> everywhere P n ->
  everywhere P (fst (insert_under idm k id c n)).
Proof.
  intros Hp Hk Hc Hn. unfold insert_under. destruct (get_array n k) as [l |] eqn:E; [| exact Hn ].
  pose proof (get_array_oget _ _ _ Hp E) as El.
  pose proof (skeep_insert_in_array idm id c l Hc (fun v Hv => ev_elem _ _ _ _ _ Hn El Hv)) as G.
  destruct (insert_in_array idm id c l) as [l' b]. cbn [fst] in *. apply skeep_upd; try assumption. intros _ _. exact G.
Qed.

Lemma skeep_insert_key n k id c : plain_key k = true -> ~ In k srel -> everywhere P c -> everywhere P n ->
  everywhere P (fst (sol_insert_key n k id c)).
Proof.
  intros Hp Hk Hc Hn. unfold sol_insert_key. destruct (take_key n k) as [[b n0] |] eqn:E; [| exact Hn ].
  pose proof (ev_field _ _ _ _ Hn (take_key_get _ _ _ _ Hp E)) as Hb.
  assert (H0 : everywhere P n0).
  { eapply skeep_but with (v := JNull); [ exact Hk | exact (but_take n k _ _ Hp E) | exact Hn | apply skeep_null |].
    intros x Hx. right. exact (children_take_key _ _ _ _ _ Hp E Hx). }
  destruct (get_str b "nodeType") as [t |]; [| apply skeep_set; assumption ].
  destruct (t =?s "Block").
  - destruct (match sol_id b with Some i => N.eqb id i | None => false end).
    + cbn [fst]. apply skeep_set; [ reflexivity | odd | exact H0 |]. apply skeep_upd; [ reflexivity | odd | exact Hb |].
      intros l Hl v [<- | Hv]; [ exact Hc | exact (ev_elem _ _ _ _ _ Hb Hl Hv) ].
    + pose proof (skeep_insert_under sol_id "statements" id c b eq_refl ltac:(odd) Hc Hb) as H.
      destruct (insert_under sol_id "statements" id c b). cbn [fst] in *. apply skeep_set; assumption.
  - destruct (has_id sol_id id b); cbn [fst]; apply skeep_set; try assumption.
    apply skeep_block. intros v [<- | [<- | []]]; assumption.
Qed.

Lemma skeep_insert n id c : everywhere P c -> everywhere P n -> everywhere P (sol_insert n id c).
Proof.
  intros Hc Hn. unfold sol_insert, sol_holder. destruct (get_str n "nodeType") as [t |]; [| exact Hn ].
  assert (H1 : forall k, In k ["body"; "block"; "trueBody"; "falseBody"] ->
     forall m, everywhere P m -> everywhere P (fst (sol_insert_key m k id c))).
  { intros k Hk m Hm. apply skeep_insert_key; try assumption;
      cbn in Hk; destruct Hk as [<- | [<- | [<- | [<- | []]]]]; try reflexivity; odd. }
  repeat match goal with |- context [if ?b then _ else _] => destruct b end; try exact Hn;
    try (apply skeep_insert_under; try assumption; [ reflexivity | odd ]); try (apply H1; [ cbn; tauto | exact Hn ]).
  pose proof (H1 "trueBody" ltac:(cbn; tauto) n Hn) as H2.
  destruct (sol_insert_key n "trueBody" id c) as [n1 b]. destruct b; [ exact H2 |]. apply H1; [ cbn; tauto | exact H2 ].
Qed.

(** ** Trees *)

Lemma salike_root n i c c' : P n -> nth_error (children n) i = Some c -> salike c c' -> P (set_child i c' n).
Proof.
  intros [[A B] H2] Hi Ha.
  assert (Hs : forall k s, has_field (set_child i c' n) k (JStr s) -> has_field n k (JStr s)).
  { unfold has_field. intros k s H. destruct (set_child_oget i c c' n k Hi) as [E | [E1 E2]]; [ rewrite E in H; exact H |].
    rewrite E2 in H. injection H as ->. rewrite E1. inversion Ha; [ reflexivity | discriminate ]. }
  assert (Hl : forall k l, has_field (set_child i c' n) k (JArr l) ->
     exists l0, has_field n k (JArr l0) /\ length l0 = length l /\ (all_strings l0 -> all_strings l)).
  { unfold has_field. intros k l H. destruct (set_child_oget i c c' n k Hi) as [E | [E1 E2]].
    - rewrite E in H. exists l. split; [ exact H | split; [ reflexivity | auto ]].
    - rewrite E2 in H. injection H as ->. inversion Ha; subst; try discriminate.
      + exists l. split; [ exact E1 | split; [ reflexivity | auto ]].
      + exists l0. split; [ exact E1 | split; assumption ]. }
  split; [ split |].
  - intros T names args Hn Hg. apply Hs in T. apply Hl in Hn, Hg.
    destruct Hn as (l1 & Hn & L1 & S1), Hg as (l2 & Hg & L2 & S2). destruct (A T _ _ Hn Hg) as [-> | [X Y]].
    + left. destruct names; [ reflexivity | discriminate L1 ].
    + right. split; [ exact (S1 X) | congruence ].
  - intros T names opts Hn Hg. apply Hs in T. apply Hl in Hn, Hg.
    destruct Hn as (l1 & Hn & L1 & S1), Hg as (l2 & Hg & L2 & S2). destruct (B T _ _ Hn Hg) as [X Y].
    split; [ exact (S1 X) | congruence ].
  - intros t next Hr. apply H2. destruct Hr as [t T X | s t T X Y | t T X]; apply Hs in T; apply Hs in X.
    + apply Sol_comment; assumption.
    + eapply Sol_documentation; eassumption.
    + apply Sol_assembly; assumption.
Qed.

Lemma salike_up n i c c' : P n -> nth_error (children n) i = Some c -> salike c c' -> salike n (set_child i c' n).
Proof.
  intros _ Hi Ha. destruct n as [| | | | l | o]; cbn [children] in Hi; try (destruct i; discriminate Hi).
  - cbn [set_child]. apply sa_arr; [ symmetry; apply length_replace_at |]. intros H v Hv.
    apply in_replace_at in Hv. destruct Hv as [-> | Hv]; [| exact (H v Hv) ].
    destruct (H c (nth_error_In _ _ Hi)) as [s ->]. inversion Ha; [ exists s; reflexivity | discriminate ].
  - apply sa_obj; reflexivity.
Qed.

Lemma skeep_place p x ast n : everywhere P ast -> subtree p ast = Some n -> is_object n = true -> is_object x = true ->
  everywhere P x -> everywhere P (set_subtree p x ast).
Proof.
  intros Ha Hp Hn Ho Hx. eapply (lift P salike salike_root salike_up); [ exact Ha | exact Hp | | exact Hx ].
  apply sa_obj; assumption.
Qed.
End Keep.

(** ** Mutants *)

Lemma is_type_object t n : is_type t n = true -> is_object n = true /\ is_sol t n.
Proof.
  unfold is_type. destruct (get_str n "nodeType") as [s |] eqn:E; [| discriminate ].
  intro H. apply String.eqb_eq in H. subst s. apply is_sol_get in E. split; [ eapply oget_object; exact E | exact E ].
Qed.

Lemma sol_mutable_object e t m n : sol_mutator_for e t = Some m -> mu_mutable m n = Ok true -> is_object n = true.
Proof.
  intros Hm H. destruct t as [[] | []]; injection Hm as <-; cbn [mu_mutable sol_binop sol_unary sol_assign sol_delete sol_call
    sol_swapargs sol_if sol_int sol_swapop sol_swaplines sol_require sol_unchecked sol_delegate] in H;
    unfold sol_binop_mutable, sol_unary_mutable, sol_assign_mutable, sol_delete_mutable, sol_call_mutable, sol_swapargs_mutable,
      sol_if_mutable, sol_int_mutable, sol_swapop_mutable, sol_swaplines_mutable, sol_require_mutable, sol_unchecked_mutable,
      sol_delegate_mutable in H;
    match type of H with context [is_type ?t n] => destruct (is_type t n) eqn:E; [| discriminate H ] end;
    apply is_type_object in E; apply E.
Qed.

Lemma set_str_object n k v : plain_key k = true -> is_object (set_str n k v) = is_object n.
Proof. apply set_object. Qed.

Lemma set_at_object n k i v : plain_key k = true -> is_object (set_key_at n k i v) = is_object n.
Proof.
  intro Hk. rewrite set_key_at_plain by exact Hk. destruct n; try reflexivity. destruct (assoc k o) as [[] |]; reflexivity.
Qed.

Ltac object H := opens H; injection H as <-; cbn [done md_node];
  rewrite ?set_object, ?set_str_object, ?set_at_object by reflexivity;
  first [ assumption
        | match goal with E : take_key _ _ = Some _ |- _ => refine (proj2 (take_object _ _ _ _ _ E)); reflexivity end ].

Lemma sol_mutated_object e t m fuel n r d : sol_mutator_for e t = Some m -> mu_mutable m n = Ok true -> sol_filled n ->
  mu_mutate m fuel n r = Ok d -> is_object (md_node d) = true.
Proof.
  intros Hm Hu Hf H. pose proof (sol_mutable_object e t m n Hm Hu) as Ho.
  assert (Hb : forall t ops, sol_binop_mutate e t ops fuel n r = Ok d -> is_object (md_node d) = true).
  { clear H. intros t0 ops H. unfold sol_binop_mutate in H. cbv zeta in H. object H. }
  destruct t as [[] | []]; injection Hm as <-; try (exact (Hb _ _ H)); clear Hb.
  - change (sol_assign_mutate e fuel n r = Ok d) in H. unfold sol_assign_mutate in H. cbv zeta in H.
    opens H; injection H as <-; cbn [done md_node].
    match goal with |- is_object match ?v with _ => _ end = _ => destruct v end; [ rewrite set_object by reflexivity |]; exact Ho.
  - change (sol_delete_mutate e fuel n r = Ok d) in H. unfold sol_delete_mutate in H. cbv zeta in H. object H.
  - change (sol_call_mutate e fuel n r = Ok d) in H.
    assert (Hn : everywhere (sroot (fun _ _ => True)) JNull) by apply skeep_null.
    unfold sol_call_mutate in H. destruct (arr_of n "arguments") as [l |] eqn:El; [| discriminate H ].
    apply arr_of_spec in El. opens H. injection H as <-. cbn [done md_node].
    match goal with H : vec_get _ _ = Ok _ |- _ => apply vec_get_In in H; eapply Hf; [| exact El | exact H ] end.
    cbn [mu_mutable sol_call] in Hu. unfold sol_call_mutable in Hu.
    destruct (is_type "FunctionCall" n) eqn:E; [| discriminate Hu ]. apply is_type_object in E. apply E.
  - change (sol_if_mutate e fuel n r = Ok d) in H. unfold sol_if_mutate in H.
    destruct (oget n "condition") as [c |] eqn:Ec; [| discriminate H ].
    destruct (e_pp e c); cbn [bind] in H; try discriminate H.
    destruct (next_mod 3 r) as [[k r'] | | |]; cbn [bind] in H; try discriminate H. cbv zeta in H.
    destruct (oget _ "condition") as [c' |] eqn:Ec' in H; [| discriminate H ].
    destruct (e_pp e c'); cbn [bind] in H; try discriminate H. injection H as <-. cbn [done md_node].
    apply oget_object in Ec'. exact Ec'.
  - change (sol_int_mutate e fuel n r = Ok d) in H. unfold sol_int_mutate in H.
    destruct (next_mod 3 r) as [[k r1] | | |]; cbn [bind] in H; try discriminate H.
    match type of H with bind ?a _ = _ => destruct a as [[[[n' old] new] r2] | | |] eqn:E; cbn [bind] in H; try discriminate H end.
    injection H as <-. cbn [done md_node].
    opens E; injection E as <- _ _ _; rewrite ?set_str_object by reflexivity; exact Ho.
  - change (sol_swapargs_mutate e fuel n r = Ok d) in H. unfold sol_swapargs_mutate in H. cbv zeta in H. object H.
  - change (sol_swapop_mutate e fuel n r = Ok d) in H. unfold sol_swapop_mutate in H. object H.
  - change (sol_swaplines_mutate e fuel n r = Ok d) in H. unfold sol_swaplines_mutate in H. object H.
  - change (sol_unary_mutate e fuel n r = Ok d) in H. unfold sol_unary_mutate in H. cbv zeta in H. object H.
  - change (sol_require_mutate e fuel n r = Ok d) in H. unfold sol_require_mutate in H. cbv zeta in H. object H.
  - change (sol_unchecked_mutate e fuel n r = Ok d) in H. unfold sol_unchecked_mutate in H. cbv zeta in H. object H.
  - change (sol_delegate_mutate e fuel n r = Ok d) in H. injection H as <-. cbn [done md_node]. rewrite set_str_object by reflexivity. exact Ho.
Qed.

Lemma sol_insert_object n id c : is_object n = true -> is_object (sol_insert n id c) = true.
Proof.
  assert (Hk : forall k m, plain_key k = true -> is_object m = true -> is_object (fst (sol_insert_key m k id c)) = true).
  { intros k m Hp Hm. unfold sol_insert_key. destruct (take_key m k) as [[b m0] |] eqn:E; [| exact Hm ].
    destruct (take_object _ _ _ _ Hp E) as [_ H0].
    destruct (get_str b "nodeType") as [t |]; [| cbn [fst]; rewrite set_object by exact Hp; exact H0 ].
    destruct (t =?s "Block").
    - destruct (match sol_id b with Some i => N.eqb id i | None => false end);
        [ cbn [fst]; rewrite set_object by reflexivity; exact H0 |].
      destruct (insert_under sol_id "statements" id c b). cbn [fst]. rewrite set_object by exact Hp. exact H0.
    - destruct (has_id sol_id id b); cbn [fst]; rewrite set_object by exact Hp; exact H0. }
  assert (Hu : forall k m, plain_key k = true -> is_object m = true -> is_object (fst (insert_under sol_id k id c m)) = true).
  { intros k m Hp Hm. unfold insert_under. destruct (get_array m k); [| exact Hm ].
    destruct (insert_in_array sol_id id c l). cbn [fst]. rewrite upd_array_plain by exact Hp.
    destruct m; try discriminate Hm. destruct (assoc k o) as [[] |]; reflexivity. }
  intro Hn. unfold sol_insert, sol_holder. destruct (get_str n "nodeType") as [t |]; [| exact Hn ].
  repeat match goal with |- context [if ?b then _ else _] => destruct b end; try exact Hn;
    try (apply Hu; [ reflexivity | exact Hn ]); try (apply Hk; [ reflexivity | exact Hn ]).
  pose proof (Hk "trueBody" n eq_refl Hn) as H2. destruct (sol_insert_key n "trueBody" id c) as [n1 b].
  destruct b; [ exact H2 |]. apply Hk; [ reflexivity | exact H2 ].
Qed.

Lemma sol_member_object n id : sol_member n id = true -> is_object n = true.
Proof.
  unfold sol_member, sol_holder. destruct (get_str n "nodeType") as [t |] eqn:E; [| discriminate ]. intros _.
  apply is_sol_get in E. eapply oget_object. exact E.
Qed.

Lemma sol_note e t m fuel n r d c : sol_mutator_for e t = Some m -> mu_mutate m fuel n r = Ok d -> md_comment d = Some c ->
  exists text, c = sol_comment text.
Proof.
  intros Hm H Hc.
  assert (Hb : forall t ops, sol_binop_mutate e t ops fuel n r = Ok d -> exists text, c = sol_comment text).
  { clear H. intros t0 ops H. unfold sol_binop_mutate in H. cbv zeta in H. opens H; injection H as <-; [| discriminate Hc ].
    injection Hc as <-. eexists. reflexivity. }
  destruct t as [[] | []]; injection Hm as <-; try (exact (Hb _ _ H)); clear Hb.
  - change (sol_assign_mutate e fuel n r = Ok d) in H. unfold sol_assign_mutate in H. cbv zeta in H.
    opens H; injection H as <-; injection Hc as <-; eexists; reflexivity.
  - change (sol_delete_mutate e fuel n r = Ok d) in H. unfold sol_delete_mutate in H. cbv zeta in H.
    opens H; injection H as <-; injection Hc as <-; eexists; reflexivity.
  - change (sol_call_mutate e fuel n r = Ok d) in H. unfold sol_call_mutate in H.
    opens H; injection H as <-; injection Hc as <-; eexists; reflexivity.
  - change (sol_if_mutate e fuel n r = Ok d) in H. unfold sol_if_mutate in H.
    destruct (oget n "condition") as [x |] eqn:Ec; [| discriminate H ].
    destruct (e_pp e x); cbn [bind] in H; try discriminate H.
    destruct (next_mod 3 r) as [[k r'] | | |]; cbn [bind] in H; try discriminate H. cbv zeta in H.
    destruct (oget _ "condition") as [c' |] eqn:Ec' in H; [| discriminate H ].
    destruct (e_pp e c'); cbn [bind] in H; try discriminate H. injection H as <-. injection Hc as <-. eexists. reflexivity.
  - change (sol_int_mutate e fuel n r = Ok d) in H. unfold sol_int_mutate in H.
    destruct (next_mod 3 r) as [[k r1] | | |]; cbn [bind] in H; try discriminate H.
    match type of H with bind ?a _ = _ => destruct a as [[[[n' old] new] r2] | | |] eqn:E; cbn [bind] in H; try discriminate H end.
    injection H as <-. injection Hc as <-. eexists. reflexivity.
  - change (sol_swapargs_mutate e fuel n r = Ok d) in H. unfold sol_swapargs_mutate in H. cbv zeta in H.
    opens H; injection H as <-; injection Hc as <-; eexists; reflexivity.
  - change (sol_swapop_mutate e fuel n r = Ok d) in H. unfold sol_swapop_mutate in H.
    opens H; injection H as <-; injection Hc as <-; eexists; reflexivity.
  - change (sol_swaplines_mutate e fuel n r = Ok d) in H. unfold sol_swaplines_mutate in H.
    opens H; injection H as <-; injection Hc as <-; eexists; reflexivity.
  - change (sol_unary_mutate e fuel n r = Ok d) in H. unfold sol_unary_mutate in H. cbv zeta in H.
    opens H; injection H as <-; injection Hc as <-; eexists; reflexivity.
  - change (sol_require_mutate e fuel n r = Ok d) in H. unfold sol_require_mutate in H. cbv zeta in H.
    opens H; injection H as <-; injection Hc as <-; eexists; reflexivity.
  - change (sol_unchecked_mutate e fuel n r = Ok d) in H. unfold sol_unchecked_mutate in H. cbv zeta in H.
    opens H; injection H as <-; injection Hc as <-; eexists; reflexivity.
  - change (sol_delegate_mutate e fuel n r = Ok d) in H. injection H as <-. injection Hc as <-. eexists. reflexivity.
Qed.

Lemma skeep_comment (R : string -> string -> Prop) text : R text "// " -> everywhere (sroot R) (sol_comment text).
Proof.
  intro H. apply ev_node.
  - split; [ split; intro T; discriminate T |]. intros t next Hr. destruct Hr as [t T X | s t T X | t T X];
      [ injection X as <-; exact H | discriminate T | discriminate T ].
  - intros v Hv. apply children_set_key in Hv; [| reflexivity ]. destruct Hv as [-> | Hv]; [ apply skeep_scalar; reflexivity |].
    apply children_mkobj in Hv. cbn [map snd] in Hv.
    repeat (destruct Hv as [<- | Hv]; [ apply skeep_scalar; reflexivity |]). destruct Hv.
Qed.

Lemma sroot_wider (R R' : string -> string -> Prop) n : (forall t next, R t next -> R' t next) ->
  everywhere (sroot R) n -> everywhere (sroot R') n.
Proof. intros H Hn q x Hx. destruct (Hn q x Hx) as [H1 H2]. split; [ exact H1 |]. intros t next Hr. apply H, H2, Hr. Qed.

Lemma sol_insert_keep R c ast path : everywhere (sroot R) ast -> everywhere (sroot R) c ->
  everywhere (sroot R) (insert_comment_by_path sol_id sol_member sol_insert ast c path).
Proof.
  intros Ha Hc. destruct (insert_by_path_spec sol_id sol_member sol_insert ast c path)
    as [(outer & up & inner & p & n & _ & Hp & _ & Hm & -> & _) | (-> & _)]; [| exact Ha ].
  pose proof (sol_member_object _ _ Hm) as Ho. eapply skeep_place; [ exact Ha | exact Hp | exact Ho | apply sol_insert_object, Ho |].
  apply skeep_insert; [ exact Hc |]. eapply ev_part; [ exact Ha | exists p; exact Hp ].
Qed.
