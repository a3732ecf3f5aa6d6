(** Where comments stand in the tree of a Solidity mutant. *)
From Coq Require Import String Ascii List NArith ZArith Bool Lia.
From Verif Require Import Base Json JsonFacts Rng MutationType Traverse OpCommon SolMutators Comments Language Generator SpecTree SpecMutation SpecOps SpecTotal SpecPlain SpecAccept SpecReach SpecLiteral SpecVyText SpecSolText SpecSolEdit SpecSolNote
  SpecComments SpecGenerator TraverseFacts TraverseFacts2 TraverseFacts3 AcceptFacts LocalFacts PlainFacts KeepSol CommentFacts
  SolText SolTextStmt SolTextClaims SolPlace SolStrip SolMade SolEditFacts SolEditClaims.
From Verif Require KeepFacts VyEditClaims.
Import ListNotations.
Open Scope string_scope.
Open Scope list_scope.

(** The types of the nodes next to whose parts comments are put. *)
Definition houses : list string :=
  ["Block"; "UncheckedBlock"; "ContractDefinition"; "DoWhileStatement"; "ForStatement"; "FunctionDefinition"; "ModifierDefinition";
   "WhileStatement"; "IfStatement"; "TryCatchClause"].
Definition common (x : json) : Prop := forall ty, is_n x ty -> ~ In ty ("Comment" :: houses).
(** No such node and no comment anywhere. *)
Definition free (v : json) : Prop := everywhere common v.

(** No list of comments alone. *)
Definition solid (l : list json) : Prop := l = [] \/ exists x, In x l /\ is_comment x = false.

Section House.
(** The block that is not empty. *)
Variable i0 : N.
Definition filled (o : list (string * json)) : Prop :=
  node_type o = "Block" -> sol_id (JObj o) = Some i0 -> assoc "statements" o <> Some (JArr []).

(** Comments stand in the lists only where [noted] has them, and are as [Q] says. *)
Inductive housed (Q : json -> Prop) : json -> Prop :=
| hs_node : forall o, is_comment (JObj o) = false -> filled o -> kept_all Q (node_type o) o -> housed Q (JObj o)
with kept_all (Q : json -> Prop) : string -> list (string * json) -> Prop :=
| ka_nil : forall ty, kept_all Q ty []
| ka_free : forall ty k v o, free v -> kept_all Q ty o -> kept_all Q ty ((k, v) :: o)
| ka_body : forall ty k v o, In (ty, k) body_fields -> housed Q v -> kept_all Q ty o -> kept_all Q ty ((k, v) :: o)
| ka_list : forall ty k b l o, In (ty, k, b) list_fields -> solid l -> housed_list Q b l -> kept_all Q ty o -> kept_all Q ty ((k, JArr l) :: o)
with housed_list (Q : json -> Prop) : bool -> list json -> Prop :=
| hl_nil : forall b, housed_list Q b []
| hl_comment : forall c l, is_comment c = true -> Q c -> housed_list Q true l -> housed_list Q true (c :: l)
| hl_free : forall b v l, free v -> housed_list Q b l -> housed_list Q b (v :: l)
| hl_cons : forall b v l, housed Q v -> housed_list Q b l -> housed_list Q b (v :: l).

Scheme housed_mut := Induction for housed Sort Prop
  with kept_mut := Induction for kept_all Sort Prop
  with housed_list_mut := Induction for housed_list Sort Prop.
Combined Scheme housed_all from housed_mut, kept_mut, housed_list_mut.

Inductive kept (Q : json -> Prop) (ty k : string) : json -> Prop :=
| kp_free : forall v, free v -> kept Q ty k v
| kp_body : forall v, In (ty, k) body_fields -> housed Q v -> kept Q ty k v
| kp_list : forall b l, In (ty, k, b) list_fields -> solid l -> housed_list Q b l -> kept Q ty k (JArr l).
Inductive element (Q : json -> Prop) (b : bool) : json -> Prop :=
| el_comment : forall c, b = true -> is_comment c = true -> Q c -> element Q b c
| el_free : forall v, free v -> element Q b v
| el_housed : forall v, housed Q v -> element Q b v.

Lemma kept_iff : forall Q ty o, kept_all Q ty o <-> forall k v, In (k, v) o -> kept Q ty k v.
Proof.
  intros Q ty o. split.
  - intros K. induction K as [ty|ty k v o F K IH|ty k v o I H K IH|ty k b l o I Sl H K IH]; intros k0 v0 J; [destruct J|..]; (destruct J as [J|J]; [injection J as <- <-|exact (IH _ _ J)]).
    + now apply kp_free.
    + now apply kp_body.
    + now apply kp_list with b.
  - induction o as [|[k v] o IH]; intros H; [constructor|].
    assert (K : kept_all Q ty o) by (apply IH; intros k0 v0 J; apply H; now right). destruct (H k v (or_introl eq_refl)) as [v F|v I F|b l I Sl F]; [now apply ka_free|now apply ka_body|now apply ka_list with b].
Qed.
Lemma list_iff : forall Q b l, housed_list Q b l <-> Forall (element Q b) l.
Proof.
  intros Q b l. split.
  - intros K. induction K; constructor; try assumption; [now apply el_comment|now apply el_free|now apply el_housed].
  - intros F. induction F as [|x l E F IH]; [constructor|]. destruct E as [c -> C Hc|v E|v E]; [now apply hl_comment|now apply hl_free|now apply hl_cons].
Qed.

Lemma housed_mono : forall Q Q' : json -> Prop, (forall c, Q c -> Q' c) ->
  (forall v, housed Q v -> housed Q' v) /\ (forall ty o, kept_all Q ty o -> kept_all Q' ty o) /\ (forall b l, housed_list Q b l -> housed_list Q' b l).
Proof.
  intros Q Q' M. apply housed_all.
  - intros o C Fi _ K. now apply hs_node.
  - intros ty. constructor.
  - intros ty k v o F _ K. now apply ka_free.
  - intros ty k v o I _ Hv _ K. now apply ka_body.
  - intros ty k b l o I Sl _ Hl _ K. now apply ka_list with b.
  - intros b. constructor.
  - intros c l C Hc _ Hl. apply hl_comment; auto.
  - intros b v l F _ Hl. now apply hl_free.
  - intros b v l _ Hv _ Hl. now apply hl_cons.
Qed.

Lemma free_uncommented : forall v, free v -> uncommented v.
Proof.
  intros v F p x S. destruct (is_comment x) eqn:C; [exfalso|reflexivity]. unfold is_comment in C. destruct (oget x "nodeType") as [[]|] eqn:E; try discriminate C.
  apply String.eqb_eq in C. subst s. apply (F p x S "Comment" E). now left.
Qed.

(** ** Comments added to the tree without them *)

Lemma node_type_strip : forall o, node_type (strip_fields o) = node_type o.
Proof. intros o. unfold node_type. rewrite assoc_strip_fields. destruct (assoc "nodeType" o) as [[]|]; reflexivity. Qed.

Lemma housed_noted_all : forall h (Q : json -> Prop), (forall c, Q c -> fair_comment h c) ->
  (forall v, housed Q v -> noted h (strip v) v) /\
  (forall ty o, kept_all Q ty o -> noted_fields h ty (strip_fields o) o) /\
  (forall b l, housed_list Q b l -> noted_list h b (strips l) l).
Proof.
  intros h Q HQ. apply housed_all.
  - intros o C Fi K IH. rewrite strip_obj. apply nt_node. rewrite node_type_strip. exact IH.
  - intros ty. constructor.
  - intros ty k v o Fr K IH. cbn [strip_fields map fst snd]. rewrite (strip_id v (free_uncommented v Fr)). now apply nf_keep.
  - intros ty k v o I Hv IHv K IH. cbn [strip_fields map fst snd]. now apply nf_body.
  - intros ty k b l o I Sl Hl IHl K IH. cbn [strip_fields map fst snd]. rewrite strip_arr.
    destruct Sl as [-> |(x & Ix & Cx)]; [exact (nf_keep h ty (k, JArr []) _ _ IH)|].
    apply nf_list with b; [exact I| |exact IHl|exact IH].
    apply in_split in Ix. destruct Ix as (u & w & ->). rewrite strips_app, strips_cons by exact Cx. intros E. apply app_eq_nil in E. destruct E as (_ & E). discriminate E.
  - intros b. constructor.
  - intros c l C Hc Hl IH. rewrite strips_comment by exact C. apply nl_comment; [exact (HQ c Hc)|exact IH].
  - intros b v l Fr Hl IH. rewrite strips_cons by exact (uncommented_root v (free_uncommented v Fr)). rewrite (strip_id v (free_uncommented v Fr)).
    apply nl_cons; [apply nt_same|exact IH].
  - intros b v l Hv IHv Hl IH. assert (C : is_comment v = false) by (destruct Hv; assumption). rewrite strips_cons by exact C. now apply nl_cons.
Qed.

Definition placed (Q : json -> Prop) (v : json) : Prop := free v \/ housed Q v.
Lemma placed_noted : forall h (Q : json -> Prop) v, (forall c, Q c -> fair_comment h c) -> placed Q v -> noted h (strip v) v.
Proof. intros h Q v HQ [F|H]; [rewrite (strip_id v (free_uncommented v F)); apply nt_same|exact (proj1 (housed_noted_all h Q HQ) v H)]. Qed.
Lemma placed_comment : forall Q v, placed Q v -> is_comment v = false.
Proof. intros Q v [F|H]; [exact (uncommented_root v (free_uncommented v F))|destruct H; assumption]. Qed.

(** ** A node replaced *)

Lemma free_set : forall p w n n', free w -> subtree p w = Some n -> same_kind n n' -> free n' -> free (set_subtree p n' w).
Proof.
  intros p w n n' F S K F'.
  refine (proj1 (KeepFacts.lift common same_kind _ _ p n' w n F S K F')).
  - intros m i c c' P N Kc ty A. apply P. unfold is_n, fld in *. destruct (KeepFacts.set_child_oget i c c' m "nodeType" N) as [E|(E & E')]; [now rewrite <- E|].
    rewrite E' in A. injection A as ->. destruct c; exact (False_ind _ Kc).
  - intros m i c c' _ N Kc. destruct m; try (destruct i; discriminate N); exact Logic.I.
Qed.

Lemma field_mid : forall (o : list (string * json)) i k w, nth_error o i = Some (k, w) -> exists o1 o2, o = o1 ++ (k, w) :: o2 /\ forall w', set_child i w' (JObj o) = JObj (o1 ++ (k, w') :: o2).
Proof.
  intros o i k w N. destruct (nth_cut _ _ _ _ N) as (l1 & l2 & -> & <-). exists l1, l2. split; [reflexivity|]. intros w'. cbn [set_child]. now rewrite set_value_cut.
Qed.

Lemma type_mid : forall o1 o2 k w w', same_kind w w' -> node_type (o1 ++ (k, w') :: o2) = node_type (o1 ++ (k, w) :: o2).
Proof.
  intros o1 o2 k w w' K. unfold node_type. destruct (assoc_mid o1 o2 k w w' "nodeType") as [E|(<- & E & E')]; [now rewrite E|]. rewrite E, E'.
  destruct w, w'; try (exact (False_ind _ K)); reflexivity.
Qed.
Lemma comment_mid : forall o1 o2 k w w', same_kind w w' -> is_comment (JObj (o1 ++ (k, w') :: o2)) = is_comment (JObj (o1 ++ (k, w) :: o2)).
Proof.
  intros o1 o2 k w w' K. unfold is_comment, oget. destruct (assoc_mid o1 o2 k w w' "nodeType") as [E|(<- & E & E')]; [now rewrite E|]. rewrite E, E'.
  destruct w, w'; try (exact (False_ind _ K)); reflexivity.
Qed.

Lemma kind_set : forall p w n n', subtree p w = Some n -> same_kind n n' -> same_kind w (set_subtree p n' w).
Proof.
  intros [|i p] w n n' S K; cbn [subtree set_subtree] in *; [injection S as ->; exact K|].
  destruct (nth_error (children w) i) as [c|] eqn:E; [|discriminate S]. destruct w; try (destruct i; discriminate E); exact Logic.I.
Qed.

Lemma id_mid : forall o1 o2 k w w', same_kind w w' -> sol_id (JObj (o1 ++ (k, w') :: o2)) = sol_id (JObj (o1 ++ (k, w) :: o2)).
Proof.
  intros o1 o2 k w w' K. destruct (assoc_mid o1 o2 k w w' "id") as [E|(<- & E & E')]; [apply id_same; cbn [oget]; now rewrite E|].
  symmetry. exact (id_of_list (JObj (o1 ++ ("id", w) :: o2)) w w' K E (JObj (o1 ++ ("id", w') :: o2)) E').
Qed.

(** One field of a housed node replaced. *)
Lemma housed_field : forall (Q Q' : json -> Prop) o1 o2 k w w', (forall c, Q c -> Q' c) -> same_kind w w' -> (w' = JArr [] -> w = JArr []) -> housed Q (JObj (o1 ++ (k, w) :: o2)) ->
  (kept Q (node_type (o1 ++ (k, w) :: o2)) k w -> kept Q' (node_type (o1 ++ (k, w) :: o2)) k w') -> housed Q' (JObj (o1 ++ (k, w') :: o2)).
Proof.
  intros Q Q' o1 o2 k w w' M K Em H G. inversion H as [o C Fi A]; subst. apply hs_node; [now rewrite (comment_mid o1 o2 k w w' K)| |].
  - unfold filled in *. rewrite (type_mid o1 o2 k w w' K), (id_mid o1 o2 k w w' K). intros T I F. apply (Fi T I).
    destruct (assoc_mid o1 o2 k w w' "statements") as [E|(<- & E & E')]; [congruence|]. rewrite E' in F. injection F as F. now rewrite E, (Em F).
  - rewrite (type_mid o1 o2 k w w' K). pose proof (proj1 (proj2 (housed_mono Q Q' M)) _ _ A) as A'. rewrite kept_iff in *. intros k0 v0 I. apply in_app_or in I. destruct I as [I|[I|I]].
    + apply A', in_or_app. now left.
    + injection I as <- <-. apply G, A, in_or_app. right. now left.
    + apply A', in_or_app. right. now right.
Qed.

Lemma placed_set : forall (Q Q' : json -> Prop) n n', (forall c, Q c -> Q' c) -> (forall c p, Q c -> subtree p c = Some n -> False) ->
  is_object n = true -> is_object n' = true -> is_comment n = false -> is_comment n' = false -> (free n -> free n') -> (housed Q n -> placed Q' n') ->
  forall p v, subtree p v = Some n -> placed Q v -> placed Q' (set_subtree p n' v).
Proof.
  intros Q Q' n n' M Nc On On' Cn Cn' Hf Hh.
  assert (K : same_kind n n') by (destruct n; try discriminate On; destruct n'; try discriminate On'; exact Logic.I).
  assert (Fr : forall p v, subtree p v = Some n -> free v -> free (set_subtree p n' v)).
  { intros p v S F. apply (free_set p v n n' F S K). apply Hf. intros q x Sq. apply (F (p ++ q)). rewrite (subtree_app p q v n S). exact Sq. }
  intros p. induction p as [p IH] using (well_founded_induction (well_founded_ltof _ (@length nat))). unfold ltof in IH.
  intros v S [F|H]; [left; now apply Fr|]. destruct p as [|i p]; [injection S as ->; exact (Hh H)|].
  cbn [subtree set_subtree] in S |- *. destruct (nth_error (children v) i) as [w|] eqn:N; [|discriminate S]. destruct H as [o C Fi A].
  cbn [children] in N. rewrite nth_error_map in N. destruct (nth_error o i) as [[k w0]|] eqn:No; cbn in N; [|discriminate N]. injection N as ->.
  destruct (field_mid o i k w No) as (o1 & o2 & -> & ->). right.
  pose proof (kind_set p w n n' S K) as Kw.
  assert (Em : set_subtree p n' w = JArr [] -> w = JArr []).
  { destruct p as [|j p]; cbn [subtree set_subtree] in *; [intros ->; discriminate On'|]. destruct (nth_error (children w) j) as [c|] eqn:Nc2; [|discriminate S].
    destruct w as [| | | |l|]; try (destruct j; discriminate Nc2); cbn [set_child]; intros E; injection E as E || discriminate E. destruct l; [reflexivity|]. destruct j; discriminate E. }
  apply (housed_field Q Q' o1 o2 k w _ M Kw Em); [now apply hs_node|]. clear C Fi A No Em. set (ty := node_type (o1 ++ (k, w) :: o2)). clearbody ty. intros R. revert S Kw.
  destruct R as [w F|w I Hw|b l I Sl Hl]; intros S Kw.
  - apply kp_free. now apply Fr.
  - destruct (IH p ltac:(cbn; lia) w S (or_intror Hw)) as [F|H]; [now apply kp_free|now apply kp_body].
  - destruct p as [|j p]; [injection S as <-; discriminate On|]. cbn [subtree set_subtree] in S |- *. destruct (nth_error (children (JArr l)) j) as [x|] eqn:Nx; [|discriminate S].
    cbn [children] in Nx. destruct (nth_cut _ _ _ _ Nx) as (l1 & l2 & -> & Ej). cbn [set_child]. rewrite <- Ej, replace_cut.
    rewrite list_iff in Hl. apply Forall_app in Hl. destruct Hl as (H1 & H2). inversion H2 as [|? ? Hx H3]; subst.
    assert (Px : placed Q' (set_subtree p n' x)).
    { destruct Hx as [x Eb Cx Qx|x F|x Hx]; [destruct (Nc x p Qx S)|left; now apply Fr|exact (IH p ltac:(cbn; lia) x S (or_intror Hx))]. }
    assert (Up : forall l, Forall (element Q b) l -> Forall (element Q' b) l).
    { intros l F. rewrite <- list_iff in *. exact (proj2 (proj2 (housed_mono Q Q' M)) _ _ F). }
    apply kp_list with b; [exact I| |].
    + right. exists (set_subtree p n' x). split; [apply in_or_app; right; now left|exact (placed_comment Q' _ Px)].
    + apply list_iff, Forall_app. split; [exact (Up _ H1)|]. constructor; [|exact (Up _ H3)]. destruct Px as [F|H]; [now apply el_free|now apply el_housed].
Qed.

(** ** The mutated node *)

Lemma free_flat : forall j, flat j = true -> free j.
Proof.
  intros j F. apply ev_node; [|intros v I; destruct j; try discriminate F; destruct I].
  intros ty A. destruct j; try discriminate F; discriminate A.
Qed.
Lemma free_list : forall l, (forall x, In x l -> free x) -> free (JArr l).
Proof. intros l H. apply ev_node; [intros ty A; discriminate A|exact H]. Qed.
Lemma free_node : forall o, ~ In (node_type o) ("Comment" :: houses) -> Forall (fun kv => free (snd kv)) o -> free (JObj o).
Proof.
  intros o T F. apply ev_node; [intros ty A; now rewrite <- (type_is o ty A)|]. intros v I. cbn [children] in I. apply in_map_iff in I. destruct I as ([k w] & <- & I).
  rewrite Forall_forall in F. exact (F _ I).
Qed.
Ltac free_new := apply free_node; [cbn; intuition discriminate|]; repeat (apply Forall_cons); try (apply Forall_nil); cbn [snd]; try (apply free_flat; reflexivity).

Lemma free_number : forall z, free (sol_int_node z).
Proof. intros z. spell (sol_int_node z). free_new. free_new. Qed.
Lemma free_truth : forall b, free (sol_bool_node b).
Proof. intros b. spell (sol_bool_node b). free_new. free_new. Qed.
Lemma free_not : forall x, free x -> free (sol_unary_node "!" true (sol_tuple_node [x])).
Proof. intros x H. spell (sol_unary_node "!" true (sol_tuple_node [x])). free_new. free_new. apply free_list. intros y [<-|[]]. exact H. Qed.
Lemma free_require : forall x, free x -> free (sol_require_node x).
Proof. intros x H. spell (sol_require_node x). free_new; free_new; try free_new. apply free_list. intros y [<-|[]]. exact H. Qed.

Lemma fills_free : forall n t k v, (forall k w, k <> "statements" -> has_field n k w -> In k ["arguments"; "condition"] -> free w) -> fills n t k v -> k <> "statements" -> free v.
Proof.
  intros n t k v H F N.
  assert (G : forall l, has_field n "arguments" (JArr l) -> forall x, In x l -> free x).
  { intros l Fl x I. assert (Fr : free (JArr l)) by (apply (H "arguments"); [discriminate|exact Fl|now left]). exact (ev_child _ (JArr l) x Fr I). }
  destruct F; try congruence; try (apply free_flat; reflexivity); try apply free_number; try apply free_truth.
  - apply free_list. intros z I. apply (G _ H0). repeat (rewrite in_app_iff in *; cbn [In] in * ). tauto.
  - apply free_not. apply (H "condition"); [discriminate|exact H0|cbn; tauto].
  - apply free_list. intros z [<-|I]; [apply free_require, (G _ H0); now left|apply (G _ H0); now right].
Qed.

Lemma kept_free : forall Q ty k w, kept Q ty k w -> ~ In k ["trueBody"; "falseBody"; "body"; "block"; "statements"; "nodes"; "clauses"] -> free w.
Proof.
  intros Q ty k w [v F|v I _|b l I _ _] N; [exact F| |]; exfalso; apply N; cbn in I |- *; repeat (destruct I as [I|I]; [injection I; intros; subst; tauto|]); destruct I.
Qed.

Lemma free_fields : forall o k v, free (JObj o) -> In (k, v) o -> free v.
Proof. intros o k v F I. apply (ev_child _ _ v F). exact (in_map snd o (k, v) I). Qed.

Lemma free_type : forall o, free (JObj o) -> ~ In (node_type o) ("Comment" :: houses).
Proof.
  intros o Fr I. destruct (node_type o) eqn:E; [cbn in I; intuition discriminate|]. apply (ev_root _ _ Fr (node_type o)); [|now rewrite E].
  unfold is_n, fld, oget. unfold node_type in E |- *. destruct (assoc "nodeType" o) as [[]|]; try discriminate E; reflexivity.
Qed.
Lemma free_housed : forall Q v, is_object v = true -> free v -> housed Q v.
Proof.
  intros Q [| | | | |o] O F; try discriminate O. apply hs_node; [exact (uncommented_root _ (free_uncommented _ F))| |].
  - intros T. exfalso. apply (free_type o F). rewrite T. cbn. tauto.
  - apply kept_iff. intros k v I. apply kp_free. exact (free_fields o k v F I).
Qed.

Lemma unchecked_housed : forall Q x id, placed Q x -> housed Q (sol_unchecked_node [x] id).
Proof.
  intros Q x id P. spell (sol_unchecked_node [x] id). apply hs_node; [reflexivity|intros T; discriminate T|]. apply kept_iff. intros k v I. cbn in I.
  assert (E : element Q true x) by (destruct P; [now apply el_free|now apply el_housed]).
  repeat (destruct I as [I|I]; [injection I as <- <-; first [apply kp_free, free_flat; reflexivity|apply kp_list with true; [cbn; tauto| |apply list_iff; constructor; [exact E|constructor]]]|]); [|destruct I].
  right. exists x. split; [now left|exact (placed_comment Q x P)].
Qed.

(** The elements of a statement list. *)
Lemma kept_elements : forall Q ty k l, kept Q ty k (JArr l) -> In (ty, k, true) list_fields -> Forall (element Q true) l /\ solid l.
Proof.
  intros Q ty k l H I. inversion H as [v F|v J Hv|b l0 J Sl Hl]; subst.
  - split; [apply Forall_forall; intros x Ix; apply el_free; exact (ev_child _ (JArr l) x F Ix)|]. destruct l as [|x l]; [now left|]. right. exists x. split; [now left|].
    exact (uncommented_root x (free_uncommented x (ev_child _ (JArr (x :: l)) x F (or_introl eq_refl)))).
  - inversion Hv.
  - split; [|exact Sl]. replace true with b; [now apply list_iff|]. cbn in I, J. repeat (destruct I as [I|I]; [injection I as <- <-; repeat (destruct J as [J|J]; [injection J; intros; congruence|]); destruct J|]). destruct I.
Qed.

Definition nothing (c : json) : Prop := False.
Lemma nothing_mono : forall (Q : json -> Prop) c, nothing c -> Q c.
Proof. intros Q c []. Qed.
Lemma nothing_placed : forall x, element nothing true x -> placed nothing x.
Proof. intros x [c _ _ []|v F|v H]; [now left|now right]. Qed.
Lemma placed_mono : forall (Q : json -> Prop) x, placed nothing x -> placed Q x.
Proof. intros Q x [F|H]; [now left|right]. exact (proj1 (housed_mono nothing Q (nothing_mono Q)) x H). Qed.
Lemma placed_element : forall Q b x, placed Q x -> element Q b x.
Proof. intros Q b x [F|H]; [now apply el_free|now apply el_housed]. Qed.

Lemma made_placed : forall (Q : json -> Prop) t n n', (t = Generic DeleteStatement -> forall l x, has_field n "statements" (JArr l) -> In x l -> is_sol "ExpressionStatement" x -> Q (sol_comment_node x)) -> sol_accepts t n -> once (match n with JObj o => map fst o | _ => [] end) = true -> is_object n' = true -> made n t n' ->
  (free n -> free n') /\ (housed nothing n -> placed Q n').
Proof.
  intros Q t n n' Del Acc O On' M.
  destruct M as [t k v n' F B|a b n' Fa Fb B|l x Fl Ix].
  - destruct (fills_key n t k v F) as (Nk & _). pose proof B as (o & o' & -> & -> & K & _ & A & E). rewrite <- K in O.
    assert (Ty : node_type o' = node_type o) by (unfold node_type; rewrite E; [reflexivity|intros Q0; apply Nk; rewrite Q0; now left]).
    assert (Cm : is_comment (JObj o') = is_comment (JObj o)) by (unfold is_comment, oget; rewrite E; [reflexivity|intros Q0; apply Nk; rewrite Q0; now left]).
    assert (St : k = "statements" -> node_type o = "Block").
    { intros ->. inversion F; subst; destruct Acc as (A0 & _); exact (type_is o _ A0). }
    split.
    + intros Fr. pose proof (free_type o Fr) as Nt.
      apply free_node; [now rewrite Ty|]. apply Forall_forall. intros [k1 v1] I. cbn [snd]. apply (once_assoc o' k1 v1 O) in I.
      destruct (string_dec k1 k) as [->|N]; [|rewrite E in I by exact N; exact (ev_field _ (JObj o) k1 v1 Fr I)]. rewrite A in I. injection I as <-.
      apply (fills_free (JObj o) t k v); [|exact F|].
      * intros k1 w _ Fw _. exact (ev_field _ (JObj o) k1 w Fr Fw).
      * intros Ek. apply Nt. rewrite (St Ek). cbn. tauto.
    + intros Hn. inversion Hn as [o0 C Fi Ka]; subst. rewrite kept_iff in Ka.
      assert (Il : In ("Block", "statements", true) list_fields) by (cbn; tauto).
      assert (El : node_type o = "Block" -> forall l, has_field (JObj o) "statements" (JArr l) -> Forall (placed nothing) l).
      { intros Tb l Fl. pose proof (Ka _ _ (SolStrip.assoc_In _ _ _ _ Fl)) as Kl. rewrite Tb in Kl. refine (Forall_impl _ nothing_placed (proj1 (kept_elements _ _ _ _ Kl Il))). }
      assert (Up : forall l, Forall (placed nothing) l -> Forall (element Q true) l) by (intros l; apply Forall_impl; intros x Px; now apply placed_element, placed_mono).
      assert (Res : k = "statements" -> exists l, v = JArr l /\ l <> [] /\ solid l /\ Forall (element Q true) l).
      { intros ->. specialize (El (St eq_refl)).
        inversion F as [| | | |a x b Fl Tx Ne| | | | |a x b y c Fl Rx Ry| |a x b id Fl Rx Ux|]; subst; specialize (El _ Fl); eexists; (split; [reflexivity|]).
        - split; [destruct a; discriminate|]. apply Forall_app in El. destruct El as (E1 & E2). inversion E2 as [|? ? Px E3]; subst. split.
          + right. destruct a as [|y a]; [destruct b as [|y b]; [destruct (Ne eq_refl)|]|]; exists y; (split; [cbn; tauto|]).
            * inversion E3; subst. eapply placed_comment; eassumption.
            * inversion E1; subst. eapply placed_comment; eassumption.
          + apply Forall_app. split; [exact (Up _ E1)|]. constructor; [|exact (Up _ E3)]. apply el_comment; [reflexivity|reflexivity|]. apply (Del eq_refl _ x Fl); [apply in_or_app; right; now left|exact Tx].
        - split; [destruct a; discriminate|]. pose proof (swap_Forall _ _ _ _ _ _ _ El) as El'. split; [|exact (Up _ El')]. right. exists y. split; [apply in_or_app; right; now left|].
          apply Forall_app in El'. destruct El' as (_ & E2). inversion E2; subst. eapply placed_comment; eassumption.
        - split; [destruct a; discriminate|]. apply Forall_app in El. destruct El as (E1 & E2). inversion E2 as [|? ? Px E3]; subst.
          assert (Hu : housed Q (sol_unchecked_node [x] id)) by (apply unchecked_housed; now apply placed_mono). split.
          + right. exists (sol_unchecked_node [x] id). split; [apply in_or_app; right; now left|exact (placed_comment Q _ (or_intror Hu))].
          + apply Forall_app. split; [exact (Up _ E1)|]. constructor; [now apply el_housed|exact (Up _ E3)]. }
      right. apply hs_node; [now rewrite Cm| |].
      * intros Tb Ib Es. rewrite Ty in Tb. destruct (string_dec k "statements") as [Ek|N].
        -- destruct (Res Ek) as (l & -> & Nl & _). subst k. rewrite A in Es. injection Es as Es. contradiction.
        -- rewrite E in Es by congruence. refine (Fi Tb _ Es). rewrite <- Ib. apply id_same. cbn [oget]. symmetry. apply E. intros Q0. apply Nk. rewrite <- Q0. cbn. tauto.
      * rewrite Ty. rewrite kept_iff. intros k1 v1 I. apply (once_assoc o' k1 v1 O) in I.
        destruct (string_dec k1 k) as [->|N].
        2:{ rewrite E in I by exact N. pose proof (Ka k1 v1 (SolStrip.assoc_In _ _ _ _ I)) as Kk. destruct Kk as [w Fw|w J Hw|b l J Sl Hl]; [now apply kp_free|apply kp_body; [exact J|]|apply kp_list with b; [exact J|exact Sl|]].
          - exact (proj1 (housed_mono nothing Q (nothing_mono Q)) _ Hw).
          - exact (proj2 (proj2 (housed_mono nothing Q (nothing_mono Q))) _ _ Hl). }
        rewrite A in I. injection I as <-.
        destruct (string_dec k "statements") as [Ek|N].
        -- destruct (Res Ek) as (l & -> & _ & Sl & Fl). rewrite (St Ek), Ek. apply kp_list with true; [exact Il|exact Sl|now apply list_iff].
        -- apply kp_free. apply (fills_free (JObj o) t k v); [|exact F|exact N]. intros k1 w _ Fw Ik. apply (kept_free nothing (node_type o) k1 w); [exact (Ka _ _ (SolStrip.assoc_In _ _ _ _ Fw))|].
           destruct Ik as [<-|[<-|[]]]; cbn; intuition discriminate.
  - pose proof B as (o & o' & -> & -> & K & A1 & A2 & E). rewrite <- K in O.
    assert (Ty : node_type o' = node_type o) by (unfold node_type; rewrite E by discriminate; reflexivity).
    assert (Cm : is_comment (JObj o') = is_comment (JObj o)) by (unfold is_comment, oget; rewrite E by discriminate; reflexivity).
    destruct Acc as (A0 & _). pose proof (type_is o _ A0) as To.
    split.
    + intros Fr. apply free_node; [rewrite Ty, To; cbn; intuition discriminate|]. apply Forall_forall. intros [k1 v1] I. cbn [snd]. apply (once_assoc o' k1 v1 O) in I.
      destruct (string_dec k1 "leftExpression") as [->|N]; [rewrite A1 in I; injection I as <-; exact (ev_field _ (JObj o) _ _ Fr Fb)|].
      destruct (string_dec k1 "rightExpression") as [->|N']; [rewrite A2 in I; injection I as <-; exact (ev_field _ (JObj o) _ _ Fr Fa)|].
      rewrite E in I by assumption. exact (ev_field _ (JObj o) k1 v1 Fr I).
    + intros Hn. inversion Hn as [o0 C Fi Ka]; subst. right. apply hs_node; [now rewrite Cm|intros Tb; rewrite Ty, To in Tb; discriminate Tb|]. rewrite Ty. rewrite kept_iff in *. intros k1 v1 I. apply (once_assoc o' k1 v1 O) in I.
      assert (G : forall k w, In k ["leftExpression"; "rightExpression"] -> has_field (JObj o) k w -> free w).
      { intros k w Ik Fw. apply (kept_free nothing (node_type o) k w); [exact (Ka _ _ (SolStrip.assoc_In _ _ _ _ Fw))|]. destruct Ik as [<-|[<-|[]]]; cbn; intuition discriminate. }
      destruct (string_dec k1 "leftExpression") as [->|N]; [rewrite A1 in I; injection I as <-; apply kp_free, (G "rightExpression"); [cbn; tauto|exact Fb]|].
      destruct (string_dec k1 "rightExpression") as [->|N']; [rewrite A2 in I; injection I as <-; apply kp_free, (G "leftExpression"); [cbn; tauto|exact Fa]|].
      rewrite E in I by assumption. pose proof (Ka k1 v1 (SolStrip.assoc_In _ _ _ _ I)) as Kk. destruct Kk as [w Fw|w J Hw|b0 l J Sl Hl]; [now apply kp_free|apply kp_body; [exact J|]|apply kp_list with b0; [exact J|exact Sl|]].
      * exact (proj1 (housed_mono nothing Q (nothing_mono Q)) _ Hw).
      * exact (proj2 (proj2 (housed_mono nothing Q (nothing_mono Q))) _ _ Hl).
  - split.
    + intros Fr. exact (ev_elem _ n _ l x Fr Fl Ix).
    + intros Hn. inversion Hn as [o C Fi Ka]; subst. rewrite kept_iff in Ka. left. assert (Fr : free (JArr l)).
      { apply (kept_free nothing (node_type o) "arguments"); [exact (Ka _ _ (SolStrip.assoc_In _ _ _ _ Fl))|cbn; intuition discriminate]. }
      exact (ev_child _ (JArr l) x Fr Ix).
Qed.

End House.
