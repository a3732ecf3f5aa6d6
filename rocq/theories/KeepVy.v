(** The Vyper operators and the comment inserter keep nodes regular and add no
    remark but the comment. *)
From Coq Require Import String Ascii List NArith ZArith Arith Bool Lia.
From Verif Require Import Base Json JsonFacts Rng MutationType Permissions Traverse OpCommon VyMutators Comments Language
  SpecTree SpecOps SpecTotal SpecPlain
  TraverseFacts TraverseFacts2 TraverseFacts3 CommentFacts OpFacts SolFacts VyFacts PaceFacts PlainFacts PlainSol PlainVy
  KeepFacts KeepSol.
Import ListNotations.
Open Scope list_scope.
Open Scope string_scope.

Definition documented (x : json) : Prop :=
  forall v, has_field x "doc_string" v -> is_object v = true -> is_vy "DocStr" v.

Definition vroot (R : string -> string -> Prop) (x : json) : Prop :=
  vy_regular x /\ (forall t next, vy_remark x t next -> R t next) /\ documented x.

Definition vrel : list string := ["ast_type"; "args"; "defaults"; "value"; "keys"; "values"; "doc_string"].

Inductive valike : json -> json -> Prop :=
| va_same a : valike a a
| va_obj a b : is_object a = true -> is_object b = true ->
    (is_vy "DocStr" a -> is_vy "DocStr" b /\ forall t, has_field b "value" (JStr t) -> has_field a "value" (JStr t)) ->
    valike a b
| va_arr l l' : length l = length l' -> valike (JArr l) (JArr l').

Section Keep.
Variable R : string -> string -> Prop.

Let P := vroot R.

Lemma vroot_free n : vy_root n -> documented n -> P n.
Proof. intros (H1 & H2 & _) H3. split; [ exact H1 |]. split; [| exact H3 ]. intros t next H. destruct (H2 t next H). Qed.

Lemma bare_doc n : oget n "doc_string" = None -> documented n.
Proof. intros H v Hv. unfold has_field in Hv. rewrite H in Hv. discriminate Hv. Qed.

Lemma vkeep_scalar n : children n = [] -> oget n "ast_type" = None -> oget n "doc_string" = None -> everywhere P n.
Proof.
  intros Hc Ht Hd. apply ev_node; [ apply vroot_free; [ apply vy_root_bare; exact Ht | apply bare_doc; exact Hd ] |].
  rewrite Hc. intros v [].
Qed.

Lemma vkeep_null : everywhere P JNull.
Proof. apply vkeep_scalar; reflexivity. Qed.

Lemma vkeep_list l : (forall v, In v l -> everywhere P v) -> everywhere P (JArr l).
Proof. intro H. apply ev_node; [ apply vroot_free; [ apply vy_root_bare; reflexivity | apply bare_doc; reflexivity ] | exact H ]. Qed.

Lemma vroot_typed ty n : is_vy ty n -> ~ In ty vy_special -> documented n -> P n.
Proof. intros Ht Hs Hd. apply vroot_free; [ eapply vy_root_type; eassumption | exact Hd ]. Qed.

Lemma vroot_but k n n' : ~ In k vrel -> but k n n' -> P n -> P n'.
Proof.
  intros Hk H (H1 & H2 & H3).
  assert (Ho : forall j v, In j vrel -> has_field n' j v -> has_field n j v).
  { unfold has_field. intros j v Hj Hv. rewrite (H j) in Hv; [ exact Hv | intros ->; exact (Hk Hj) ]. }
  assert (Ht : forall s, is_vy s n' -> is_vy s n) by (intros s; apply Ho; now left).
  split; [| split ].
  - destruct H1 as (A & B & C). split; [| split ]; intro T; apply Ht in T.
    + intros a b X Y. apply Ho in X, Y; try (cbn; tauto). exact (A T _ _ X Y).
    + intros s X. apply Ho in X; [| cbn; tauto ]. exact (B T _ X).
    + intros a b X Y. apply Ho in X, Y; try (cbn; tauto). exact (C T _ _ X Y).
  - intros t next Hr. apply H2. destruct Hr as [t T X | v t T X Y].
    + apply Vy_comment; [ apply Ht; exact T | apply Ho; [ cbn; tauto | exact X ]].
    + eapply Vy_doc; [ destruct T; [ left | right ]; apply Ht; assumption | apply Ho; [ cbn; tauto | exact X ] | exact Y ].
  - intros v Hv. apply H3. apply Ho; [ cbn; tauto | exact Hv ].
Qed.

Lemma vkeep_parts n n' v : P n' -> everywhere P n -> everywhere P v ->
  (forall x, In x (children n') -> x = v \/ x = JNull \/ In x (children n)) -> everywhere P n'.
Proof.
  intros Hr Hn Hv Hc. apply ev_node; [ exact Hr |].
  intros x Hx. destruct (Hc x Hx) as [-> | [-> | H]]; [ exact Hv | apply vkeep_null | exact (ev_child _ _ _ Hn H) ].
Qed.

Lemma vkeep_set n k v : plain_key k = true -> ~ In k vrel -> everywhere P n -> everywhere P v ->
  everywhere P (set_key n k v).
Proof.
  intros Hp Hk Hn Hv. eapply vkeep_parts; [ | exact Hn | exact Hv |].
  - eapply vroot_but; [ exact Hk | apply but_set; exact Hp | exact (ev_root _ _ Hn) ].
  - intros x Hx. apply children_set_key in Hx; [| exact Hp ]. destruct Hx; [ now left | right; now right ].
Qed.

Lemma vkeep_take n k w n0 : plain_key k = true -> ~ In k vrel -> take_key n k = Some (w, n0) ->
  everywhere P n -> everywhere P n0.
Proof.
  intros Hp Hk Ht Hn. eapply vkeep_parts; [ | exact Hn | apply vkeep_null |].
  - eapply vroot_but; [ exact Hk | eapply but_take; eassumption | exact (ev_root _ _ Hn) ].
  - intros x Hx. right. eapply children_take_key; eassumption.
Qed.

(** A node of an ordinary type, with one field changed. *)
Lemma vkeep_typed ty n n' k v : is_vy ty n -> ~ In ty vy_special -> ~ In k ["ast_type"; "doc_string"] -> but k n n' ->
  everywhere P n -> everywhere P v ->
  (forall x, In x (children n') -> x = v \/ x = JNull \/ In x (children n)) -> everywhere P n'.
Proof.
  intros Ht Hs Hk Hb Hn Hv Hc. eapply vkeep_parts; [ | exact Hn | exact Hv | exact Hc ].
  eapply vroot_typed; [ | exact Hs |].
  - unfold is_vy, has_field. rewrite Hb; [ exact Ht | intros <-; apply Hk; now left ].
  - intros w Hw. apply (proj2 (proj2 (ev_root _ _ Hn))). unfold has_field in *.
    rewrite Hb in Hw; [ exact Hw | intros <-; apply Hk; right; now left ].
Qed.

(** ** Built nodes *)

Ltac parts H := apply children_mkobj in H; cbn [map snd] in H;
  repeat (destruct H as [<- | H]; [ try (apply vkeep_scalar; reflexivity) |]); try (now destruct H).
Ltac built ty := apply ev_node; [ apply (vroot_typed ty); [ reflexivity | cbn; intuition discriminate | apply bare_doc; reflexivity ] |].

Lemma vkeep_num z : everywhere P (parse_int_literal z).
Proof.
  assert (H : exists x, parse_int_literal z = JNum x).
  { unfold parse_int_literal. destruct (round_f64 z) as [m k].
    destruct (0 <=? z)%Z; [ destruct (z <? _)%Z | destruct (_ <=? z)%Z ]; eexists; reflexivity. }
  destruct H as [x ->]. apply vkeep_scalar; reflexivity.
Qed.

Lemma vkeep_int z : everywhere P (vy_int_node z).
Proof. built "Int". intros v Hv. parts Hv. apply vkeep_num. Qed.

Lemma vkeep_float t : everywhere P (vy_float_node t).
Proof. built "Decimal". intros v Hv. parts Hv. Qed.

Lemma vkeep_bool b : everywhere P (vy_bool_node b).
Proof. built "NameConstant". intros v Hv. parts Hv. Qed.

Lemma vkeep_pass : everywhere P vy_pass_node.
Proof. built "Pass". intros v Hv. parts Hv. Qed.

Lemma vkeep_str t : everywhere P (vy_str_node t).
Proof. built "Str". intros v Hv. parts Hv. Qed.

Lemma vkeep_return x : everywhere P x -> everywhere P (vy_return_node x).
Proof.
  intro Hx. unfold vy_return_node. built "Return". intros v Hv. apply children_set_key in Hv; [| reflexivity ].
  destruct Hv as [-> | Hv]; [ exact Hx |]. parts Hv.
Qed.

Lemma vkeep_not x : everywhere P x -> everywhere P (vy_unary_node "Not" x).
Proof.
  intro Hx. unfold vy_unary_node. built "UnaryOp". intros v Hv. apply children_set_key in Hv; [| reflexivity ].
  destruct Hv as [-> | Hv]; [ exact Hx |]. parts Hv. built "Not". intros v Hv. parts Hv.
Qed.

Lemma vkeep_group size kind : In kind ["Tuple"; "List"] -> everywhere P (vy_list_node size kind).
Proof.
  intro Hk. unfold vy_list_node.
  assert (G : everywhere P (JArr (repeat (mkobj [ ("node_id", juint 9999992); ("ast_type", JStr "NameConstant"); ("value", JNull) ]) size))).
  { apply vkeep_list. intros v Hv. apply repeat_spec in Hv. subst v. built "NameConstant". intros v Hv. parts Hv. }
  destruct Hk as [<- | [<- | []]].
  - built "Tuple". intros v Hv. apply children_set_key in Hv; [| reflexivity ]. destruct Hv as [-> | Hv]; [ exact G |].
    parts Hv.
  - built "List". intros v Hv. apply children_set_key in Hv; [| reflexivity ]. destruct Hv as [-> | Hv]; [ exact G |].
    parts Hv.
Qed.

Lemma vkeep_comment_node x : is_object x = true -> everywhere P x -> everywhere P (vy_comment_node x).
Proof.
  intros Ho Hx. unfold vy_comment_node. cbv zeta.
  apply vkeep_set; [ reflexivity | cbn; intuition discriminate | | apply vkeep_scalar; destruct (get_int x "node_id") as [[] |]; reflexivity ].
  apply ev_node.
  - split; [ split; [| split ]; intro H; discriminate H |]. split; [| apply bare_doc; reflexivity ].
    intros t next H. destruct H as [t H X | v t [H | H] X].
    + unfold has_field in X. rewrite set_get in X by reflexivity. injection X as ->. discriminate Ho.
    + discriminate H.
    + discriminate H.
  - intros v Hv. apply children_set_key in Hv; [| reflexivity ]. destruct Hv as [-> | Hv]; [ exact Hx |]. parts Hv.
Qed.

(** ** The operators *)

Lemma is_ast_vy t n : is_ast t n = true -> is_vy t n.
Proof.
  unfold is_ast. destruct (get_str n "ast_type") as [s |] eqn:E; [| discriminate ].
  intro H. apply String.eqb_eq in H. subst s. apply is_vy_get. exact E.
Qed.

Lemma is_ast_in_vy ts n : is_ast_in ts n = true -> exists t, In t ts /\ is_vy t n.
Proof.
  unfold is_ast_in. destruct (get_str n "ast_type") as [s |] eqn:E; [| discriminate ].
  intro H. exists s. split; [| apply is_vy_get; exact E ]. apply smem_In in H. exact H.
Qed.

Ltac odd := cbn; intuition discriminate.

Lemma set_children k v n x : plain_key k = true -> In x (children (set_key n k v)) -> x = v \/ x = JNull \/ In x (children n).
Proof. intros Hp Hx. apply children_set_key in Hx; [| exact Hp ]. destruct Hx; [ now left | right; now right ]. Qed.

Lemma operator_type c vop : assoc c reverse_operators = Some vop -> ~ In vop vy_special.
Proof.
  intro H. apply assoc_In in H. unfold reverse_operators in H. apply in_map_iff in H. destruct H as ([a b] & E & H).
  cbn [fst snd] in E. injection E as _ <-. unfold python_operators in H. cbn [In] in H.
  repeat (destruct H as [H | H]; [ injection H as <- _; unfold vy_special; cbn; intuition discriminate |]). destruct H.
Qed.

Lemma vkeep_op op vop : ~ In vop vy_special -> everywhere P op -> everywhere P (set_str op "ast_type" vop).
Proof.
  intros Hs Ho. destruct (is_object op) eqn:E.
  - eapply vkeep_parts; [ | exact Ho | apply (vkeep_scalar (JStr vop)); reflexivity | intros x; apply set_children; reflexivity ].
    eapply vroot_typed; [ | exact Hs |].
    + unfold is_vy, has_field, set_str. apply set_get; [ reflexivity | exact E ].
    + intros w Hw. apply (proj2 (proj2 (ev_root _ _ Ho))). unfold has_field, set_str in *.
      rewrite (but_set op "ast_type" (JStr vop) eq_refl) in Hw by discriminate. exact Hw.
  - unfold set_str. rewrite set_key_plain by reflexivity. destruct op; try exact Ho. discriminate E.
Qed.

Lemma vkeep_binop e t ops fuel n r d : everywhere P n -> vy_binop_mutate e t ops fuel n r = Ok d -> everywhere P (md_node d).
Proof.
  intros Hn H. unfold vy_binop_mutate in H. cbv zeta in H.
  destruct (take_key n "op") as [[op n0] |] eqn:Et; [| discriminate H ]. opens H. injection H as <-. cbn [done md_node].
  apply vkeep_set; [ reflexivity | odd | eapply vkeep_take; [| | exact Et | exact Hn ]; [ reflexivity | odd ] |].
  apply vkeep_op; [ eapply operator_type; eassumption |].
  exact (ev_field _ _ _ _ Hn (take_key_get n "op" _ _ eq_refl Et)).
Qed.

Lemma vkeep_assign e fuel n r d : is_vy "Assign" n -> everywhere P n -> vy_assign_mutate e fuel n r = Ok d -> everywhere P (md_node d).
Proof.
  intros Ht Hn H. unfold vy_assign_mutate in H. cbv zeta in H.
  destruct (oget n "value") as [w |]; [| discriminate H ]. destruct (e_pp e w); cbn [bind] in H; try discriminate H.
  destruct (vy_assign_value e r) as [[[v bytes] r'] | | |] eqn:Ev; cbn [bind] in H; try discriminate H.
  opens H. injection H as <-. cbn [done md_node].
  eapply vkeep_typed; [ exact Ht | odd | | apply but_set; reflexivity | exact Hn | | intros x; apply set_children; reflexivity ]; [ odd |].
  unfold vy_assign_value in Ev. opens Ev; injection Ev as <- _ _; first [ apply vkeep_int | apply vkeep_bool | apply vkeep_float ].
Qed.

Lemma vkeep_filler n r more bytes r' : vy_delete_filler n r = Ok (more, bytes, r') -> forall v, In v more -> everywhere P v.
Proof.
  intros H v Hv. unfold vy_delete_filler in H. cbv zeta in H.
  destruct (oget n "returns") as [ret |]; [| injection H as <- _ _; destruct Hv as [<- | []]; apply vkeep_pass ].
  destruct (get_str ret "ast_type") as [t |]; [| injection H as <- _ _; destruct Hv as [<- | []]; apply vkeep_pass ].
  destruct (t =?s "Name").
  - opens H; injection H as <- _ _; try (destruct Hv as [<- | []]); try (now destruct Hv); apply vkeep_return;
      first [ apply vkeep_bool | apply vkeep_int | apply vkeep_str ].
  - destruct (t =?s "Pass"); [ injection H as <- _ _; destruct Hv |].
    destruct ((t =?s "Tuple") || (t =?s "List"))%bool eqn:E; [| injection H as <- _ _; destruct Hv ].
    destruct (varr_of ret "elements"); injection H as <- _ _; [| destruct Hv ]. destruct Hv as [<- | []].
    apply vkeep_return, vkeep_group. apply orb_true_iff in E. destruct E as [E | E]; apply String.eqb_eq in E; subst t; cbn; tauto.
Qed.

Lemma vkeep_delete e fuel n r d : vy_filled n -> everywhere P n -> vy_delete_mutate e fuel n r = Ok d -> everywhere P (md_node d).
Proof.
  intros Hf Hn H. unfold vy_delete_mutate in H. destruct (take_key n "body") as [[w n0] |] eqn:Et; [| discriminate H ].
  destruct w; try discriminate H. cbv zeta in H.
  pose proof (take_key_get _ "body" _ _ eq_refl Et) as Hl.
  destruct (random_index (length l) r) as [[i r1] | | |]; cbn [bind] in H; try discriminate H.
  destruct (vec_get l i) as [x | | |] eqn:Ex; cbn [bind] in H; try discriminate H. apply vec_get_In in Ex.
  assert (Hx : forall v, In v (vec_put i (vy_comment_node x) l) -> everywhere P v).
  { intros v Hv. apply in_vec_put in Hv. destruct Hv as [-> | Hv]; [| exact (ev_elem _ _ _ _ _ Hn Hl Hv) ].
    apply vkeep_comment_node; [ eapply Hf; eassumption | exact (ev_elem _ _ _ _ _ Hn Hl Ex) ]. }
  match type of H with bind ?a _ = _ => destruct a as [[[l2 bytes] r2] | | |] eqn:E; cbn [bind] in H; try discriminate H end.
  injection H as <-. cbn [done md_node].
  apply vkeep_set; [ reflexivity | odd | eapply vkeep_take; [| | exact Et | exact Hn ]; [ reflexivity | odd ] |].
  apply vkeep_list. destruct (Nat.eqb _ 1).
  - destruct (vy_delete_filler n0 r1) as [[[more b] r3] | | |] eqn:Ef; cbn [bind] in E; try discriminate E.
    injection E as <- _ _. intros v Hv. apply in_app_or in Hv. destruct Hv as [Hv | Hv]; [ exact (Hx v Hv) |].
    eapply vkeep_filler; eassumption.
  - injection E as <- _ _. exact Hx.
Qed.

Lemma vkeep_call e fuel n r d : everywhere P n -> vy_call_mutate e fuel n r = Ok d -> everywhere P (md_node d).
Proof.
  intros Hn H. unfold vy_call_mutate in H. destruct (varr_of n "args") as [l |] eqn:El; [| discriminate H ].
  change (varr_of n "args") with (SolMutators.arr_of n "args") in El. apply arr_of_spec in El. opens H. injection H as <-. cbn [done md_node].
  match goal with H : vec_get _ _ = Ok _ |- _ => apply vec_get_In in H end. eapply ev_elem; eassumption.
Qed.

Lemma vkeep_swapargs e fuel n r d : is_vy "Call" n -> everywhere P n -> vy_swapargs_mutate e fuel n r = Ok d -> everywhere P (md_node d).
Proof.
  intros Ht Hn H. unfold vy_swapargs_mutate in H. cbv zeta in H. destruct (take_key n "args") as [[w n0] |] eqn:Et; [| discriminate H ].
  destruct w; try discriminate H. pose proof (take_key_get _ "args" _ _ eq_refl Et) as Hl.
  assert (H0 : everywhere P n0).
  { eapply (vkeep_typed "Call" n n0 "args" JNull); [ exact Ht | odd | odd | exact (but_take n "args" _ _ eq_refl Et) | exact Hn | apply vkeep_null |].
    intros x Hx. right. exact (children_take_key n "args" _ _ _ eq_refl Et Hx). }
  assert (H1 : is_vy "Call" n0) by (unfold is_vy, has_field; rewrite (but_take n "args" _ _ eq_refl Et) by discriminate; exact Ht).
  assert (G : forall a1 a2 i j, In a1 l -> In a2 l ->
     everywhere P (set_key n0 "args" (JArr (replace_at j a1 (replace_at i a2 l))))).
  { intros a1 a2 i j X Y.
    eapply (vkeep_typed "Call" n0); [ exact H1 | odd | | apply but_set; reflexivity | exact H0 | | intros x; apply set_children; reflexivity ]; [ odd |].
    apply vkeep_list. intros v Hv.
    apply in_replace_at in Hv. destruct Hv as [-> | Hv]; [ exact (ev_elem _ _ _ _ _ Hn Hl X) |].
    apply in_replace_at in Hv. destruct Hv as [-> | Hv]; [ exact (ev_elem _ _ _ _ _ Hn Hl Y) | exact (ev_elem _ _ _ _ _ Hn Hl Hv) ]. }
  destruct (length l) as [| [| [| k]]]; opens H; injection H as <-; cbn [done md_node]; try exact H0;
    first [ eapply (G _ _ 0 1) | eapply G ]; eapply vec_get_In; eassumption.
Qed.

Lemma vkeep_if e fuel n r d : everywhere P n -> vy_if_mutate e fuel n r = Ok d -> everywhere P (md_node d).
Proof.
  intros Hn H. unfold vy_if_mutate in H. cbv zeta in H. destruct (oget n "test") as [c |]; [| discriminate H ].
  destruct (e_pp e c); cbn [bind] in H; try discriminate H.
  destruct (next_mod 3 r) as [[k r'] | | |]; cbn [bind] in H; try discriminate H.
  assert (Hb : forall b, everywhere P (set_key n "test" (vy_bool_node b))).
  { intro b. apply vkeep_set; [ reflexivity | odd | exact Hn | apply vkeep_bool ]. }
  assert (Hneg : forall c n0, take_key n "test" = Some (c, n0) -> everywhere P (set_key n0 "test" (vy_unary_node "Not" c))).
  { intros c0 n0 Et. apply vkeep_set; [ reflexivity | odd | eapply vkeep_take; [| | exact Et | exact Hn ]; [ reflexivity | odd ] |].
    apply vkeep_not. exact (ev_field _ _ _ _ Hn (take_key_get n "test" _ _ eq_refl Et)). }
  assert (Hg : match take_key n "test" with
    | Some (c, n0) => (let? new_s := e_pp e (vy_unary_node "Not" c) in
        Ok (done (Generic IfStatement) (set_key n0 "test" (vy_unary_node "Not" c)) (vy_id (set_key n0 "test" (vy_unary_node "Not" c)))
              (Some (hash e (le_bytes 8 k)))
              (vy_comment ("IfStatement Mutator: changed test condition '" ++ a ++ "' to '" ++ new_s ++ "'")) r'))
    | None => Ok {| md_node := n;
                    md_result := {| mr_type := Some (Generic IfStatement); mr_index := None;
                                    mr_node := vy_id n; mr_hash := Some (hash e (le_bytes 8 k)) |};
                    md_comment := None; md_rng := r' |}
    end = Ok d -> everywhere P (md_node d)).
  { destruct (take_key n "test") as [[w n0] |] eqn:Et.
    - destruct (e_pp e (vy_unary_node "Not" w)); cbn [bind]; intro X; try discriminate X. injection X as <-. exact (Hneg _ _ eq_refl).
    - intro X. injection X as <-. exact Hn. }
  destruct k as [| [p | p |]]; try exact (Hg H).
  - destruct (e_pp e (vy_bool_node true)); cbn [bind] in H; try discriminate H. injection H as <-. apply Hb.
  - destruct (e_pp e (vy_bool_node false)); cbn [bind] in H; try discriminate H. injection H as <-. apply Hb.
Qed.

Lemma vkeep_intop e fuel n r d : is_vy "Int" n -> everywhere P n -> vy_int_mutate e fuel n r = Ok d -> everywhere P (md_node d).
Proof.
  intros Ht Hn H. unfold vy_int_mutate in H. destruct (e_pp e n); cbn [bind] in H; try discriminate H.
  destruct (next_mod 3 r) as [[k r1] | | |]; cbn [bind] in H; try discriminate H.
  match type of H with bind ?a _ = _ => destruct a as [[n' r2] | | |] eqn:E; cbn [bind] in H; try discriminate H end.
  opens H. injection H as <-. cbn [done md_node].
  assert (G : forall z, everywhere P (set_key n "value" (jint z))).
  { intro z. eapply vkeep_typed; [ exact Ht | odd | | apply but_set; reflexivity | exact Hn | | intros x; apply set_children; reflexivity ]; [ odd |].
    apply vkeep_scalar; destruct z; reflexivity. }
  opens E; injection E as <- _; first [ apply G | exact Hn ].
Qed.

Lemma vkeep_swapop e fuel n r d : (exists t, In t ["BinOp"; "BoolOp"; "Compare"] /\ is_vy t n) -> everywhere P n ->
  vy_swapop_mutate e fuel n r = Ok d -> everywhere P (md_node d).
Proof.
  intros (t & Hin & Ht) Hn H. unfold vy_swapop_mutate in H. rewrite (proj1 (is_vy_get t n) Ht) in H.
  assert (Hs : ~ In t vy_special).
  { destruct Hin as [<- | [<- | [<- | []]]]; odd. }
  destruct (vy_swapop_edit e t n) as [[[n' sa] sb] | | |] eqn:E; cbn [bind] in H; try discriminate H.
  injection H as <-. cbn [done md_node]. unfold vy_swapop_edit in E.
  destruct (smem t ["BinOp"; "Compare"]).
  - destruct (take_key n "left") as [[a n0] |] eqn:Ea; [| injection E as <- _ _; exact Hn ].
    assert (H0 : everywhere P n0) by (eapply (vkeep_take n "left"); [| | exact Ea | exact Hn ]; [ reflexivity | odd ]).
    destruct (take_key n0 "right") as [[b n1] |] eqn:Eb; [| injection E as <- _ _; exact H0 ].
    assert (H1 : everywhere P n1) by (eapply (vkeep_take n0 "right"); [| | exact Eb | exact H0 ]; [ reflexivity | odd ]).
    opens E. injection E as <- _ _. apply vkeep_set; [ reflexivity | odd | | exact (ev_field _ _ _ _ Hn (take_key_get n "left" _ _ eq_refl Ea)) ].
    apply vkeep_set; [ reflexivity | odd | exact H1 | exact (ev_field _ _ _ _ H0 (take_key_get n0 "right" _ _ eq_refl Eb)) ].
  - destruct (t =?s "BoolOp"); [| injection E as <- _ _; exact Hn ].
    destruct (take_key n "values") as [[w n0] |] eqn:Ea; [| injection E as <- _ _; exact Hn ].
    assert (H0 : everywhere P n0).
    { eapply (vkeep_typed t n n0 "values" JNull); [ exact Ht | exact Hs | odd | exact (but_take n "values" _ _ eq_refl Ea) | exact Hn | apply vkeep_null |].
      intros x Hx. right. exact (children_take_key n "values" _ _ _ eq_refl Ea Hx). }
    opens E; injection E as <- _ _; exact H0.
Qed.

Lemma vkeep_swaplines e fuel n r d : everywhere P n -> vy_swaplines_mutate e fuel n r = Ok d -> everywhere P (md_node d).
Proof.
  intros Hn H. unfold vy_swaplines_mutate in H. destruct (take_key n "body") as [[w n0] |] eqn:Et; [| discriminate H ].
  destruct w; try discriminate H. cbv zeta in H. opens H. injection H as <-. cbn [done md_node].
  pose proof (take_key_get _ "body" _ _ eq_refl Et) as Hl.
  apply vkeep_set; [ reflexivity | odd | eapply vkeep_take; [| | exact Et | exact Hn ]; [ reflexivity | odd ] |].
  apply vkeep_list. intros v Hv. eapply ev_elem; [ exact Hn | exact Hl |]. eapply vec_swap_subset; eassumption.
Qed.

Lemma vkeep_unary e fuel n r d : everywhere P n -> vy_unary_mutate e fuel n r = Ok d -> everywhere P (md_node d).
Proof.
  intros Hn H. unfold vy_unary_mutate in H. destruct (e_pp e n); cbn [bind] in H; try discriminate H.
  destruct (take_key n "operand") as [[x n0] |] eqn:Et; [| discriminate H ]. opens H. injection H as <-. cbn [done md_node].
  exact (ev_field _ _ _ _ Hn (take_key_get n "operand" _ _ eq_refl Et)).
Qed.

(** The types of node an operator applies to. *)
Definition vy_types (t : mutation_type) : list string :=
  match t with
  | Generic Assignment => ["Assign"]
  | Generic DeleteStatement => ["FunctionDef"; "For"; "If"; "Module"]
  | Generic FunctionCall | Generic SwapFunctionArguments => ["Call"]
  | Generic IfStatement => ["If"]
  | Generic Integer => ["Int"]
  | Generic SwapLines => ["FunctionDef"; "For"; "If"]
  | Generic UnaryOp => ["UnaryOp"]
  | _ => ["BinOp"; "BoolOp"; "Compare"]
  end.

Lemma vy_mutable_types e t m n : vy_mutator_for e t = Some m -> mu_mutable m n = Ok true ->
  exists ty, In ty (vy_types t) /\ is_vy ty n.
Proof.
  intros Hm H. destruct t as [[] | []]; try discriminate Hm; injection Hm as <-;
    cbn [mu_mutable vy_binop vy_assign vy_delete vy_call vy_swapargs vy_if vy_int vy_swapop vy_swaplines vy_unary] in H;
    unfold vy_binop_mutable, vy_assign_mutable, vy_delete_mutable, vy_call_mutable, vy_swapargs_mutable, vy_if_mutable,
      vy_int_mutable, vy_swapop_mutable, vy_swaplines_mutable, vy_unary_mutable in H;
    match type of H with
    | context [is_ast_in ?l n] => destruct (is_ast_in l n) eqn:E; [ apply is_ast_in_vy in E; exact E | discriminate H ]
    | context [is_ast ?l n] => destruct (is_ast l n) eqn:E; [| discriminate H ];
        apply is_ast_vy in E; exists l; split; [ now left | exact E ]
    end.
Qed.

Lemma vy_one ty n : (exists t, In t [ty] /\ is_vy t n) -> is_vy ty n.
Proof. intros (t & [<- | []] & H). exact H. Qed.

Lemma vy_keep e t m fuel n r d : vy_mutator_for e t = Some m -> mu_mutable m n = Ok true -> vy_filled n -> everywhere P n ->
  mu_mutate m fuel n r = Ok d -> everywhere P (md_node d).
Proof.
  intros Hm Hu Hf Hn H. pose proof (vy_mutable_types e t m n Hm Hu) as Ht.
  destruct t as [[] | []]; try discriminate Hm; injection Hm as <-; cbn [vy_types] in Ht; try apply vy_one in Ht;
    first [ exact (vkeep_binop _ _ _ _ _ _ _ Hn H) | exact (vkeep_assign e fuel n r d Ht Hn H) | exact (vkeep_delete e fuel n r d Hf Hn H)
          | exact (vkeep_call e fuel n r d Hn H) | exact (vkeep_swapargs e fuel n r d Ht Hn H) | exact (vkeep_if e fuel n r d Hn H)
          | exact (vkeep_intop e fuel n r d Ht Hn H) | exact (vkeep_swapop e fuel n r d Ht Hn H)
          | exact (vkeep_swaplines e fuel n r d Hn H) | exact (vkeep_unary e fuel n r d Hn H) ].
Qed.

(** ** Comment insertion *)

Lemma vkeep_insert_in_array idm id c l : everywhere P c -> (forall v, In v l -> everywhere P v) ->
  forall v, In v (fst (insert_in_array idm id c l)) -> everywhere P v.
Proof.
  intros Hc. induction l as [| x l IH]; intros Hl v Hv; cbn [insert_in_array] in Hv; [ destruct Hv |].
  destruct (has_id idm id x); [ destruct Hv as [<- | Hv]; [ exact Hc | exact (Hl v Hv) ] |].
  destruct (insert_in_array idm id c l) as [l' b]. destruct Hv as [<- | Hv]; [ apply Hl; now left |].
  apply IH; [ intros w Hw; apply Hl; now right | exact Hv ].
Qed.

Lemma vkeep_upd n k f : plain_key k = true -> ~ In k vrel -> everywhere P n ->
  (forall l, oget n k = Some (JArr l) -> forall v, In v (f l) -> everywhere P v) -> everywhere P (upd_array n k f).
Proof.
  intros Hp Hk Hn Hf. destruct (oget n k) as [w |] eqn:E.
  - destruct w; try (rewrite upd_array_plain by exact Hp; destruct n; try exact Hn; cbn [oget] in E; rewrite E; exact Hn).
    rewrite (upd_array_set n k f l Hp E). apply vkeep_set; [ exact Hp | exact Hk | exact Hn |].
    apply vkeep_list. exact (Hf l eq_refl).
  - rewrite upd_array_plain by exact Hp. destruct n; try exact Hn. cbn [oget] in E. rewrite E. exact Hn.
Qed.

Lemma vkeep_insert_under idm k id c n : plain_key k = true -> ~ In k vrel -> everywhere P c -> everywhere P n ->
  everywhere P (fst (insert_under idm k id c n)).
Proof.
  intros Hp Hk Hc Hn. unfold insert_under. destruct (get_array n k) as [l |] eqn:E; [| exact Hn ].
  pose proof (get_array_oget _ _ _ Hp E) as El.
  pose proof (vkeep_insert_in_array idm id c l Hc (fun v Hv => ev_elem _ _ _ _ _ Hn El Hv)) as G.
  destruct (insert_in_array idm id c l) as [l' b]. cbn [fst] in *. apply vkeep_upd; try assumption. intros _ _. exact G.
Qed.

Lemma vkeep_insert n id c : everywhere P c -> everywhere P n -> everywhere P (vy_insert n id c).
Proof.
  intros Hc Hn. unfold vy_insert. destruct (is_ast_in ["For"; "FunctionDef"; "Module"] n).
  - apply vkeep_insert_under; try assumption; [ reflexivity | odd ].
  - destruct (is_ast "If" n); [| exact Hn ].
    pose proof (vkeep_insert_under vy_id "body" id c n eq_refl ltac:(odd) Hc Hn) as H.
    destruct (insert_under vy_id "body" id c n) as [n1 b]. cbn [fst] in H. destruct b; [ exact H |].
    apply vkeep_insert_under; try assumption; [ reflexivity | odd ].
Qed.

(** ** Trees *)

Lemma valike_root n i c c' : P n -> nth_error (children n) i = Some c -> valike c c' -> P (set_child i c' n).
Proof.
  intros ((A & B & C) & H2 & H3) Hi Ha.
  assert (Hs : forall k s, has_field (set_child i c' n) k (JStr s) -> has_field n k (JStr s)).
  { unfold has_field. intros k s H. destruct (set_child_oget i c c' n k Hi) as [E | [E1 E2]]; [ rewrite E in H; exact H |].
    rewrite E2 in H. injection H as ->. rewrite E1. inversion Ha; [ reflexivity | discriminate ]. }
  assert (Hl : forall k l, has_field (set_child i c' n) k (JArr l) ->
     exists l0, has_field n k (JArr l0) /\ length l0 = length l).
  { unfold has_field. intros k l H. destruct (set_child_oget i c c' n k Hi) as [E | [E1 E2]].
    - rewrite E in H. exists l. split; [ exact H | reflexivity ].
    - rewrite E2 in H. injection H as ->. inversion Ha; subst; try discriminate.
      + exists l. split; [ exact E1 | reflexivity ].
      + exists l0. split; [ exact E1 | assumption ]. }
  assert (Hd : forall v, has_field (set_child i c' n) "doc_string" v -> is_object v = true ->
     is_vy "DocStr" v /\ forall t, has_field v "value" (JStr t) -> exists w, has_field n "doc_string" w /\ has_field w "value" (JStr t)).
  { unfold has_field at 1. intros v H Ho. destruct (set_child_oget i c c' n "doc_string" Hi) as [E | [E1 E2]].
    - rewrite E in H. split; [ exact (H3 v H Ho) |]. intros t Ht. exists v. split; [ exact H | exact Ht ].
    - rewrite E2 in H. injection H as ->. inversion Ha; subst; try discriminate.
      + split; [ exact (H3 v E1 Ho) |]. intros t Ht. exists v. split; [ exact E1 | exact Ht ].
      + destruct (H1 (H3 c E1 H)) as [X Y]. split; [ exact X |]. intros t Ht. exists c. split; [ exact E1 | exact (Y t Ht) ]. }
  split; [ split; [| split ] | split ].
  - intros T a b X Y. apply Hs in T. apply Hl in X, Y. destruct X as (l1 & X & L1), Y as (l2 & Y & L2).
    pose proof (A T _ _ X Y). congruence || lia.
  - intros T s X. apply Hs in T, X. exact (B T s X).
  - intros T a b X Y. apply Hs in T. apply Hl in X, Y. destruct X as (l1 & X & L1), Y as (l2 & Y & L2).
    pose proof (C T _ _ X Y). congruence || lia.
  - intros t next Hr. apply H2. destruct Hr as [t T X | v t T X Y].
    + apply Hs in T, X. apply Vy_comment; assumption.
    + destruct (Hd v X (oget_object _ _ _ Y)) as [_ W]. destruct (W t Y) as (w & Hw & Hv).
      eapply Vy_doc; [| exact Hw | exact Hv ]. destruct T as [T | T]; apply Hs in T; [ left | right ]; exact T.
  - intros v Hv Ho. apply Hd; assumption.
Qed.

Lemma valike_up n i c c' : P n -> nth_error (children n) i = Some c -> valike c c' -> valike n (set_child i c' n).
Proof.
  intros _ Hi Ha.
  assert (Hn : (exists l, n = JArr l) \/ is_object n = true /\ is_object (set_child i c' n) = true).
  { destruct n; cbn [children] in Hi; try (destruct i; discriminate Hi); [ left; eexists; reflexivity | right; split; reflexivity ]. }
  destruct Hn as [(l & ->) | [Hn Hn']].
  - cbn [set_child]. apply va_arr. symmetry. apply length_replace_at.
  - apply va_obj; [ exact Hn | exact Hn' |]. intro T. split.
    + unfold is_vy, has_field in *. destruct (set_child_oget i c c' n "ast_type" Hi) as [E | [E1 E2]]; [ rewrite E; exact T |].
      rewrite E2. rewrite E1 in T. injection T as ->. inversion Ha; [ reflexivity | discriminate ].
    + intros t. unfold has_field. destruct (set_child_oget i c c' n "value" Hi) as [E | [E1 E2]]; [ rewrite E; trivial |].
      rewrite E2. intro X. injection X as ->. rewrite E1. inversion Ha; [ reflexivity | discriminate ].
Qed.

Lemma vkeep_place p x ast n : everywhere P ast -> subtree p ast = Some n -> is_object n = true -> is_object x = true ->
  ~ is_vy "DocStr" n -> everywhere P x -> everywhere P (set_subtree p x ast).
Proof.
  intros Ha Hp Hn Ho Hd Hx. eapply (lift P valike valike_root valike_up); [ exact Ha | exact Hp | | exact Hx ].
  apply va_obj; [ exact Hn | exact Ho |]. intro T. destruct (Hd T).
Qed.
End Keep.

(** ** Mutants *)

Lemma is_vy_other a b n : is_vy a n -> a <> b -> ~ is_vy b n.
Proof. unfold is_vy, has_field. intros H Hab X. rewrite H in X. injection X as X. exact (Hab X). Qed.

Lemma vy_mutable_object e t m n : vy_mutator_for e t = Some m -> mu_mutable m n = Ok true ->
  is_object n = true /\ ~ is_vy "DocStr" n.
Proof.
  intros Hm H. destruct (vy_mutable_types e t m n Hm H) as (ty & Hin & Ht).
  split; [ exact (oget_object _ _ _ Ht) |]. eapply is_vy_other; [ exact Ht |].
  intros ->. destruct t as [[] | []]; cbn in Hin; intuition discriminate.
Qed.

Lemma vy_mutated_object e t m fuel n r d : vy_mutator_for e t = Some m -> mu_mutable m n = Ok true -> vy_filled n ->
  mu_mutate m fuel n r = Ok d -> is_object (md_node d) = true.
Proof.
  intros Hm Hu (Fc & Fu & Fb & _) H. pose proof (proj1 (vy_mutable_object e t m n Hm Hu)) as Ho.
  pose proof (vy_mutable_types e t m n Hm Hu) as Ht.
  assert (Hb : forall t ops, vy_binop_mutate e t ops fuel n r = Ok d -> is_object (md_node d) = true).
  { clear H. intros t0 ops H. unfold vy_binop_mutate in H. cbv zeta in H. object H. }
  destruct t as [[] | []]; try discriminate Hm; injection Hm as <-; try (exact (Hb _ _ H)); clear Hb;
    cbn [vy_types] in Ht; try apply vy_one in Ht.
  - change (vy_assign_mutate e fuel n r = Ok d) in H. unfold vy_assign_mutate in H. cbv zeta in H. object H.
  - change (vy_delete_mutate e fuel n r = Ok d) in H. unfold vy_delete_mutate in H.
    destruct (take_key n "body") as [[w n0] |] eqn:Et; [| discriminate H ]. destruct w; try discriminate H. cbv zeta in H.
    destruct (random_index (length l) r) as [[i r1] | | |]; cbn [bind] in H; try discriminate H.
    destruct (vec_get l i) as [x | | |]; cbn [bind] in H; try discriminate H.
    match type of H with bind ?a _ = _ => destruct a as [[[l2 bytes] r2] | | |] eqn:E; cbn [bind] in H; try discriminate H end.
    injection H as <-. cbn [done md_node]. rewrite set_object by reflexivity. exact (proj2 (take_object n "body" _ _ eq_refl Et)).
  - change (vy_call_mutate e fuel n r = Ok d) in H. unfold vy_call_mutate in H.
    destruct (varr_of n "args") as [l |] eqn:El; [| discriminate H ].
    change (varr_of n "args") with (SolMutators.arr_of n "args") in El. apply arr_of_spec in El. opens H. injection H as <-. cbn [done md_node].
    match goal with H : vec_get _ _ = Ok _ |- _ => apply vec_get_In in H; exact (Fc Ht _ _ El H) end.
  - change (vy_if_mutate e fuel n r = Ok d) in H. unfold vy_if_mutate in H. cbv zeta in H.
    destruct (oget n "test") as [c |]; [| discriminate H ]. destruct (e_pp e c); cbn [bind] in H; try discriminate H.
    destruct (next_mod 3 r) as [[k r'] | | |]; cbn [bind] in H; try discriminate H.
    destruct (take_key n "test") as [[w n0] |] eqn:Et; [ pose proof (proj2 (take_object n "test" _ _ eq_refl Et)) |];
      destruct k as [| [p | p |]]; opens H; injection H as <-; cbn [done md_node]; rewrite ?set_object by reflexivity; assumption.
  - change (vy_int_mutate e fuel n r = Ok d) in H. unfold vy_int_mutate in H. destruct (e_pp e n); cbn [bind] in H; try discriminate H.
    destruct (next_mod 3 r) as [[k r1] | | |]; cbn [bind] in H; try discriminate H.
    match type of H with bind ?a _ = _ => destruct a as [[n' r2] | | |] eqn:E; cbn [bind] in H; try discriminate H end.
    opens H. injection H as <-. cbn [done md_node]. opens E; injection E as <- _; rewrite ?set_object by reflexivity; exact Ho.
  - change (vy_swapargs_mutate e fuel n r = Ok d) in H. unfold vy_swapargs_mutate in H. cbv zeta in H.
    destruct (take_key n "args") as [[w n0] |] eqn:Et; [| discriminate H ]. destruct w; try discriminate H.
    pose proof (proj2 (take_object n "args" _ _ eq_refl Et)).
    destruct (length l) as [| [| [| k]]]; opens H; injection H as <-; cbn [done md_node]; rewrite ?set_object by reflexivity; assumption.
  - change (vy_swapop_mutate e fuel n r = Ok d) in H. unfold vy_swapop_mutate in H.
    destruct (get_str n "ast_type") as [ty |]; [| discriminate H ].
    destruct (vy_swapop_edit e ty n) as [[[n' sa] sb] | | |] eqn:E; cbn [bind] in H; try discriminate H.
    injection H as <-. cbn [done md_node]. unfold vy_swapop_edit in E.
    destruct (smem ty ["BinOp"; "Compare"]).
    + destruct (take_key n "left") as [[a n0] |] eqn:Ea; [| injection E as <- _ _; exact Ho ].
      pose proof (proj2 (take_object n "left" _ _ eq_refl Ea)) as H0.
      destruct (take_key n0 "right") as [[b n1] |] eqn:Eb; [| injection E as <- _ _; exact H0 ].
      pose proof (proj2 (take_object n0 "right" _ _ eq_refl Eb)) as H1.
      opens E. injection E as <- _ _. rewrite ?set_object by reflexivity. exact H1.
    + destruct (ty =?s "BoolOp"); [| injection E as <- _ _; exact Ho ].
      destruct (take_key n "values") as [[w n0] |] eqn:Ea; [| injection E as <- _ _; exact Ho ].
      pose proof (proj2 (take_object n "values" _ _ eq_refl Ea)) as H0. opens E; injection E as <- _ _; exact H0.
  - change (vy_swaplines_mutate e fuel n r = Ok d) in H. unfold vy_swaplines_mutate in H.
    destruct (take_key n "body") as [[w n0] |] eqn:Et; [| discriminate H ]. destruct w; try discriminate H. cbv zeta in H.
    pose proof (proj2 (take_object n "body" _ _ eq_refl Et)).
    opens H. injection H as <-. cbn [done md_node]. rewrite ?set_object by reflexivity. assumption.
  - change (vy_unary_mutate e fuel n r = Ok d) in H. unfold vy_unary_mutate in H. destruct (e_pp e n); cbn [bind] in H; try discriminate H.
    destruct (take_key n "operand") as [[x n0] |] eqn:Et; [| discriminate H ]. opens H. injection H as <-. cbn [done md_node].
    exact (Fu Ht x (take_key_get n "operand" _ _ eq_refl Et)).
Qed.

Lemma vy_insert_object n id c : is_object n = true -> is_object (vy_insert n id c) = true.
Proof.
  assert (Hu : forall k m, plain_key k = true -> is_object m = true -> is_object (fst (insert_under vy_id k id c m)) = true).
  { intros k m Hp Hm. unfold insert_under. destruct (get_array m k); [| exact Hm ].
    destruct (insert_in_array vy_id id c l). cbn [fst]. rewrite upd_array_plain by exact Hp.
    destruct m; try discriminate Hm. destruct (assoc k o) as [[] |]; reflexivity. }
  intro Hn. unfold vy_insert. destruct (is_ast_in ["For"; "FunctionDef"; "Module"] n).
  - apply Hu; [ reflexivity | exact Hn ].
  - destruct (is_ast "If" n); [| exact Hn ]. pose proof (Hu "body" n eq_refl Hn) as H2.
    destruct (insert_under vy_id "body" id c n) as [n1 b]. destruct b; [ exact H2 |]. apply Hu; [ reflexivity | exact H2 ].
Qed.

Lemma vy_member_object n id : vy_member n id = true -> is_object n = true /\ ~ is_vy "DocStr" n.
Proof.
  unfold vy_member. intro H.
  assert (exists ty, In ty ["For"; "FunctionDef"; "Module"; "If"] /\ is_vy ty n) as (ty & Hin & Ht).
  { destruct (is_ast_in ["For"; "FunctionDef"; "Module"] n) eqn:E.
    - apply is_ast_in_vy in E. destruct E as (ty & Hin & Ht). exists ty. split; [ cbn in *; tauto | exact Ht ].
    - destruct (is_ast "If" n) eqn:E2; [| discriminate H ]. apply is_ast_vy in E2. exists "If". split; [ cbn; tauto | exact E2 ]. }
  split; [ exact (oget_object _ _ _ Ht) |]. eapply is_vy_other; [ exact Ht |]. intros ->. cbn in Hin; intuition discriminate.
Qed.

Lemma vy_note e t m fuel n r d c : vy_mutator_for e t = Some m -> mu_mutate m fuel n r = Ok d -> md_comment d = Some c ->
  exists text, c = vy_comment text.
Proof.
  intros Hm H Hc.
  assert (Hb : forall t ops, vy_binop_mutate e t ops fuel n r = Ok d -> exists text, c = vy_comment text).
  { clear H. intros t0 ops H. unfold vy_binop_mutate in H. cbv zeta in H.
    opens H; injection H as <-; injection Hc as <-; eexists; reflexivity. }
  destruct t as [[] | []]; try discriminate Hm; injection Hm as <-; try (exact (Hb _ _ H)); clear Hb.
  - change (vy_assign_mutate e fuel n r = Ok d) in H. unfold vy_assign_mutate in H. cbv zeta in H.
    opens H; injection H as <-; injection Hc as <-; eexists; reflexivity.
  - change (vy_delete_mutate e fuel n r = Ok d) in H. unfold vy_delete_mutate in H.
    destruct (take_key n "body") as [[w n0] |] eqn:Et; [| discriminate H ]. destruct w; try discriminate H. cbv zeta in H.
    destruct (random_index (length l) r) as [[i r1] | | |]; cbn [bind] in H; try discriminate H.
    destruct (vec_get l i) as [x | | |]; cbn [bind] in H; try discriminate H.
    match type of H with bind ?a _ = _ => destruct a as [[[l2 bytes] r2] | | |] eqn:E; cbn [bind] in H; try discriminate H end.
    injection H as <-; injection Hc as <-; eexists; reflexivity.
  - change (vy_call_mutate e fuel n r = Ok d) in H. unfold vy_call_mutate in H.
    opens H; injection H as <-; injection Hc as <-; eexists; reflexivity.
  - change (vy_if_mutate e fuel n r = Ok d) in H. unfold vy_if_mutate in H. cbv zeta in H.
    destruct (oget n "test") as [x |]; [| discriminate H ]. destruct (e_pp e x); cbn [bind] in H; try discriminate H.
    destruct (next_mod 3 r) as [[k r'] | | |]; cbn [bind] in H; try discriminate H.
    destruct (take_key n "test") as [[w n0] |] eqn:Et;
      destruct k as [| [p | p |]]; opens H; injection H as <-; first [ discriminate Hc | injection Hc as <-; eexists; reflexivity ].
  - change (vy_int_mutate e fuel n r = Ok d) in H. unfold vy_int_mutate in H. destruct (e_pp e n); cbn [bind] in H; try discriminate H.
    destruct (next_mod 3 r) as [[k r1] | | |]; cbn [bind] in H; try discriminate H.
    match type of H with bind ?a _ = _ => destruct a as [[n' r2] | | |] eqn:E; cbn [bind] in H; try discriminate H end.
    opens H. injection H as <-. injection Hc as <-; eexists; reflexivity.
  - change (vy_swapargs_mutate e fuel n r = Ok d) in H. unfold vy_swapargs_mutate in H. cbv zeta in H.
    destruct (take_key n "args") as [[w n0] |] eqn:Et; [| discriminate H ]. destruct w; try discriminate H.
    destruct (length l) as [| [| [| k]]]; opens H; injection H as <-; first [ discriminate Hc | injection Hc as <-; eexists; reflexivity ].
  - change (vy_swapop_mutate e fuel n r = Ok d) in H. unfold vy_swapop_mutate in H.
    destruct (get_str n "ast_type") as [ty |]; [| discriminate H ].
    destruct (vy_swapop_edit e ty n) as [[[n' sa] sb] | | |] eqn:E; cbn [bind] in H; try discriminate H.
    injection H as <-. injection Hc as <-; eexists; reflexivity.
  - change (vy_swaplines_mutate e fuel n r = Ok d) in H. unfold vy_swaplines_mutate in H.
    destruct (take_key n "body") as [[w n0] |] eqn:Et; [| discriminate H ]. destruct w; try discriminate H. cbv zeta in H.
    opens H. injection H as <-. injection Hc as <-; eexists; reflexivity.
  - change (vy_unary_mutate e fuel n r = Ok d) in H. unfold vy_unary_mutate in H. destruct (e_pp e n); cbn [bind] in H; try discriminate H.
    destruct (take_key n "operand") as [[x n0] |] eqn:Et; [| discriminate H ]. opens H. injection H as <-. injection Hc as <-; eexists; reflexivity.
Qed.

Lemma vkeep_comment (R : string -> string -> Prop) text : R text "# " -> everywhere (vroot R) (vy_comment text).
Proof.
  intro H. apply ev_node.
  - split; [ split; [| split ]; intro T; discriminate T |]. split; [| apply bare_doc; reflexivity ].
    intros t next Hr. destruct Hr as [t T X | v t [T | T] X]; [ injection X as <-; exact H | discriminate T | discriminate T ].
  - intros v Hv. apply children_set_key in Hv; [| reflexivity ]. destruct Hv as [-> | Hv]; [ apply vkeep_scalar; reflexivity |].
    apply children_mkobj in Hv. cbn [map snd] in Hv.
    repeat (destruct Hv as [<- | Hv]; [ apply vkeep_scalar; reflexivity |]). destruct Hv.
Qed.

Lemma vroot_wider (R R' : string -> string -> Prop) n : (forall t next, R t next -> R' t next) ->
  everywhere (vroot R) n -> everywhere (vroot R') n.
Proof.
  intros H Hn q x Hx. destruct (Hn q x Hx) as (H1 & H2 & H3). split; [ exact H1 | split; [| exact H3 ]].
  intros t next Hr. apply H, H2, Hr.
Qed.

Lemma vy_insert_keep R c ast path : everywhere (vroot R) ast -> everywhere (vroot R) c ->
  everywhere (vroot R) (insert_comment_by_path vy_id vy_member vy_insert ast c path).
Proof.
  intros Ha Hc. destruct (insert_by_path_spec vy_id vy_member vy_insert ast c path)
    as [(outer & up & inner & p & n & _ & Hp & _ & Hm & -> & _) | (-> & _)]; [| exact Ha ].
  destruct (vy_member_object _ _ Hm) as [Ho Hd].
  eapply vkeep_place; [ exact Ha | exact Hp | exact Ho | apply vy_insert_object, Ho | exact Hd |].
  apply vkeep_insert; [ exact Hc |]. eapply ev_part; [ exact Ha | exists p; exact Hp ].
Qed.
