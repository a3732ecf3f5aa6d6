(** Grouping of operands: one reading only; what mutations do to it. *)
From Coq Require Import String Ascii List NArith ZArith Arith Bool Lia.
From Verif Require Import Base Json JsonFacts Printer SolPrinter SpecTree SpecMutation SpecOps SpecGroup OpFacts SolFacts TraverseFacts TraverseFacts2 TraverseFacts3 EmitFacts SolEmit LocalFacts.
Import ListNotations.
Open Scope string_scope.
Open Scope list_scope.

(** ** One reading *)
Definition ops_above (q : nat) (l : list (json + string)) : Prop := forall op, In (inr op) l -> In op (map fst levels) /\ q <= level_of op.

Lemma known_level : forall op, In op (map fst levels) -> 2 <= level_of op <= 12.
Proof. intros op H. cbn in H. decompose [or] H; subst; try contradiction; cbn; lia. Qed.

Lemma needs_spec : forall op, In op (map fst levels) ->
  (op = "**" /\ level_of op = 12 /\ left_needs op = 13 /\ right_needs op = 12) \/
  (level_of op < 12 /\ left_needs op = level_of op /\ right_needs op = S (level_of op)).
Proof. intros op H. cbn in H. decompose [or] H; subst; try contradiction; cbn; (right; repeat split; lia) || (left; repeat split; lia). Qed.

Lemma power_level : forall op, In op (map fst levels) -> level_of op = 12 -> op = "**".
Proof. intros op H. cbn in H. decompose [or] H; subst; try contradiction; cbn; (discriminate || reflexivity). Qed.

Lemma row_ops : forall t q, grouped t -> (match t with Operation op _ _ => q <= level_of op | _ => True end) -> ops_above q (row t).
Proof.
  induction t as [x|op l IHl r IHr]; intros q G R o I.
  - destruct I as [I|[]]. discriminate.
  - destruct G as (K & Nl & Nr & Gl & Gr). cbn [row] in I. rewrite in_app_iff in I.
    assert (Lq : forall t', root_binding t' >= level_of op -> match t' with Operation op' _ _ => q <= level_of op' | _ => True end).
    { intros [x|o' a b]; [easy|]. cbn [root_binding]. lia. }
    assert (M : level_of op <= left_needs op /\ level_of op <= right_needs op) by (destruct (needs_spec op K) as [(_ & -> & -> & ->)|(? & -> & ->)]; lia).
    destruct I as [I|[I|I]].
    + apply (IHl q Gl); [apply Lq; lia|exact I].
    + injection I as ->. split; [exact K|exact R].
    + apply (IHr q Gr); [apply Lq; lia|exact I].
Qed.

Lemma row_not_nil : forall t, row t <> [].
Proof. intros [x|op l r]; cbn; [discriminate|]. destruct (row l); discriminate. Qed.

Lemma split_unique : forall A (a b a' b' : list A) x x', a ++ x :: b = a' ++ x' :: b' ->
  (a = a' /\ x = x' /\ b = b') \/ (In x' b /\ In x a') \/ (In x' a /\ In x b').
Proof.
  intros A. induction a as [|y a IH]; intros b a' b' x x' H; destruct a' as [|y' a']; cbn [app] in H.
  - injection H as -> ->. now left.
  - injection H as -> ->. right. left. split; [apply in_or_app; right|]; now left.
  - injection H as -> <-. right. right. split; [|apply in_or_app; right]; now left.
  - injection H as -> H. destruct (IH _ _ _ _ _ H) as [(-> & -> & ->)|[(I & J)|(I & J)]]; [now left|right; left|right; right]; split; auto; now right.
Qed.

(** Where the operator of a grouped tree stands: the last of its level, or the
    first. *)
Lemma root_ops : forall op l r, grouped (Operation op l r) ->
  ops_above (left_needs op) (row l) /\ ops_above (right_needs op) (row r).
Proof.
  intros op l r (K & Nl & Nr & Gl & Gr). split; apply row_ops; try assumption; [destruct l|destruct r]; cbn [root_binding] in *; auto.
Qed.

Lemma one_reading : forall t t', grouped t -> grouped t' -> row t = row t' -> t = t'.
Proof.
  induction t as [x|op l IHl r IHr]; intros t' G G' E.
  - destruct t' as [x'|op' l' r']; [cbn in E; congruence|]. cbn [row] in E. apply (f_equal (@length _)) in E.
    rewrite app_length in E. cbn in E. pose proof (row_not_nil l'). destruct (row l'); [contradiction|cbn in E; lia].
  - destruct t' as [x'|op' l' r'].
    { cbn [row] in E. apply (f_equal (@length _)) in E. rewrite app_length in E. cbn in E. pose proof (row_not_nil l). destruct (row l); [contradiction|cbn in E; lia]. }
    cbn [row] in E. pose proof (root_ops _ _ _ G) as (L & R). pose proof (root_ops _ _ _ G') as (L' & R').
    destruct G as (K & _ & _ & Gl & Gr). destruct G' as (K' & _ & _ & Gl' & Gr').
    assert (X : In (inr op') (row l) -> left_needs op <= level_of op') by (intros I; now apply L).
    assert (Y : In (inr op') (row r) -> right_needs op <= level_of op') by (intros I; now apply R).
    assert (X' : In (inr op) (row l') -> left_needs op' <= level_of op) by (intros I; now apply L').
    assert (Y' : In (inr op) (row r') -> right_needs op' <= level_of op) by (intros I; now apply R').
    destruct (split_unique _ _ _ _ _ _ _ E) as [(Hl & H & Hr)|[(I & J)|(I & J)]].
    { injection H as ->. rewrite (IHl l' Gl Gl' Hl), (IHr r' Gr Gr' Hr). reflexivity. }
    all: exfalso; destruct (needs_spec op K) as [(-> & A & B & C)|(A & B & C)], (needs_spec op' K') as [(-> & A' & B' & C')|(A' & B' & C')];
      rewrite ?A, ?B, ?C, ?A', ?B', ?C' in *.
    all: try (apply Y in I; apply X' in J; lia).
    all: apply X in I; apply Y' in J; lia.
Qed.

(** ** The row is what is printed *)
Definition piece (c : sctx) (w : json + string) : list cmd :=
  match w with inl x => sol_emit c x | inr op => [Space; Tok op; Space] end.

Lemma printed_row : forall n t, operations n t -> forall c, sol_emit c n = flat_map (piece c) (row t).
Proof.
  intros n t H. induction H as [n N|n op l r tl tr T O L R Hl IHl Hr IHr]; intros c.
  - cbn. now rewrite app_nil_r.
  - cbn [row]. rewrite flat_map_app. cbn [flat_map piece]. rewrite <- IHl, <- IHr.
    rewrite sol_emit_unfold. unfold sol_printer_for. rewrite (proj2 (get_str_Some n "nodeType" _ eq_refl) T).
    change (assoc "BinaryOperation" sol_table) with (Some s_BinaryOperation). cbn iota. unfold s_BinaryOperation, s_operator, sub.
    rewrite (proj2 (get_str_Some n "operator" _ eq_refl) O). unfold has_field in L, R. rewrite L, R. reflexivity.
Qed.

(** ** Keeping the grouping *)
Notation wg := well_grouped.

Lemma wg_unfold : forall j, wg j <-> (forall k v, has_field j k v -> place_needs j k <= binding v) /\ Forall wg (children j).
Proof.
  intros j. split.
  - intros H. split; [exact (fun k v => H [] j k v eq_refl)|]. apply Forall_forall. intros c I p n k v Hp.
    apply In_nth_error in I. destruct I as (i & I). apply (H (i :: p)). cbn [subtree]. now rewrite I.
  - intros (H & F) [|i p] n k v Hp; cbn [subtree] in Hp.
    + injection Hp as <-. apply H.
    + destruct (nth_error (children j) i) as [c|] eqn:E; [|discriminate]. apply nth_error_In in E.
      rewrite Forall_forall in F. now apply (F c E p).
Qed.

Lemma wg_subtree : forall p j n, wg j -> subtree p j = Some n -> wg n.
Proof. intros p j n H Hp q m k v Hq. apply (H (p ++ q)). rewrite subtree_app, Hp. exact Hq. Qed.

Lemma wg_oget : forall j k v, wg j -> oget j k = Some v -> wg v.
Proof.
  intros j k v H E. apply wg_unfold in H. destruct H as (_ & F). rewrite Forall_forall in F. apply F.
  destruct j as [| | | | |o]; try discriminate. cbn [oget children] in *. clear - E.
  induction o as [|[k' v'] o IH]; [discriminate|]. cbn [assoc] in E. destruct (k =?s k'); [injection E as ->; now left|right; now apply IH].
Qed.

Lemma wg_scalar : forall j, children j = [] -> wg j.
Proof.
  intros j H. apply wg_unfold. split; [|rewrite H; constructor]. intros k v E. destruct j as [| | | | |o]; try discriminate.
  cbn in H. destruct o; discriminate.
Qed.

Lemma wg_arr : forall l, wg (JArr l) <-> Forall wg l.
Proof. intros l. rewrite wg_unfold. cbn [children]. split; [tauto|]. intros H. split; [discriminate|exact H]. Qed.

Lemma in_obj_set : forall k (v : json) o c, In c (map snd (obj_set k v o)) -> c = v \/ In c (map snd o).
Proof.
  intros k v. induction o as [|[k' v'] o IH]; intros c H; [destruct H|]. cbn [obj_set] in H. destruct (k =?s k'); cbn in H |- *; [intuition|].
  destruct H as [H|H]; [tauto|]. apply IH in H. tauto.
Qed.
Lemma in_obj_insert : forall k (v : json) o c, In c (map snd (obj_insert k v o)) -> c = v \/ In c (map snd o).
Proof.
  intros k v. induction o as [|[k' v'] o IH]; intros c H; cbn [obj_insert] in H; [cbn in H; intuition|].
  destruct (k =?s k'); [cbn in H |- *; intuition|]. destruct (str_ltb k k'); cbn in H |- *; [intuition|].
  destruct H as [H|H]; [tauto|]. apply IH in H. tauto.
Qed.

Lemma in_set_key : forall j k v c, plain_key k = true -> In c (children (set_key j k v)) -> c = v \/ In c (children j).
Proof.
  intros j k v c P. rewrite set_key_plain by exact P. destruct j as [| | | | |o]; try (right; assumption).
  destruct (assoc k o); cbn [children]; [apply in_obj_set|apply in_obj_insert].
Qed.

Lemma set_key_isobj : forall j k v, plain_key k = true -> isobj j -> isobj (set_key j k v).
Proof. intros j k v P (o & ->). rewrite set_key_plain by exact P. destruct (assoc k o); eexists; reflexivity. Qed.

Lemma oget_set_key_cases : forall j k v k' w, plain_key k = true -> oget (set_key j k v) k' = Some w ->
  (k' = k /\ w = v) \/ (k' <> k /\ oget j k' = Some w).
Proof.
  intros j k v k' w P H. destruct (string_dec k' k) as [->|N].
  - left. split; [reflexivity|]. destruct (is_object j) eqn:O; [rewrite oget_set_key_same in H by assumption; congruence|].
    rewrite set_key_plain in H by exact P. destruct j; discriminate.
  - right. split; [exact N|]. now rewrite oget_set_key_other in H by assumption.
Qed.

(** The keys that decide about binding. *)
Definition telling : list string := ["nodeType"; "operator"; "prefix"].

Lemma place_same : forall n n' k, (forall q, In q telling -> oget n' q = oget n q) -> place_needs n' k = place_needs n k.
Proof.
  intros n n' k H. unfold place_needs, string_at, flag_at.
  rewrite (H "nodeType"), (H "operator"), (H "prefix") by (cbn; tauto). reflexivity.
Qed.
Lemma binding_same : forall n n', (forall q, In q telling -> oget n' q = oget n q) -> binding n' = binding n.
Proof.
  intros n n' H. unfold binding, string_at, flag_at.
  rewrite (H "nodeType"), (H "operator"), (H "prefix") by (cbn; tauto). reflexivity.
Qed.

Lemma wg_set_key : forall n k v, plain_key k = true -> ~ In k telling -> wg n -> wg v -> place_needs n k <= binding v -> wg (set_key n k v).
Proof.
  intros n k v P T Hn Hv B. apply wg_unfold. apply wg_unfold in Hn. destruct Hn as (Hs & Hc). split.
  - intros k' w E. rewrite (place_same n) by (intros q Q; apply oget_set_key_other; [exact P|intros ->; contradiction]).
    destruct (oget_set_key_cases _ _ _ _ _ P E) as [(-> & ->)|(_ & E')]; [exact B|now apply Hs].
  - apply Forall_forall. intros c I. destruct (in_set_key _ _ _ _ P I) as [->|J]; [exact Hv|]. rewrite Forall_forall in Hc. now apply Hc.
Qed.

Lemma binding_set_key : forall n k v, plain_key k = true -> ~ In k telling -> binding (set_key n k v) = binding n.
Proof. intros n k v P T. apply binding_same. intros q Q. apply oget_set_key_other; [exact P|intros ->; contradiction]. Qed.

(** Another operator of the same kind. *)
Lemma wg_set_operator : forall n op op', wg n -> oget n "operator" = Some (JStr op) ->
  (string_at n "nodeType" = "BinaryOperation" -> left_needs op' = left_needs op /\ right_needs op' = right_needs op) ->
  wg (set_key n "operator" (JStr op')).
Proof.
  intros n op op' Hn O B. apply wg_unfold. apply wg_unfold in Hn. destruct Hn as (Hs & Hc). split.
  - intros k w E. destruct (oget_set_key_cases _ _ _ _ _ (eq_refl : plain_key "operator" = true) E) as [(-> & ->)|(N & E')].
    + assert (Z : place_needs (set_key n "operator" (JStr op')) "operator" = 0); [|lia].
      unfold place_needs. repeat match goal with |- context [if ?b then _ else _] => destruct b; try reflexivity end.
    + specialize (Hs _ _ E'). enough (X : place_needs (set_key n "operator" (JStr op')) k = place_needs n k) by (rewrite X; exact Hs).
      unfold place_needs. assert (T : string_at (set_key n "operator" (JStr op')) "nodeType" = string_at n "nodeType")
        by (unfold string_at; rewrite oget_set_key_other by (reflexivity || discriminate); reflexivity).
      assert (F : flag_at (set_key n "operator" (JStr op')) "prefix" = flag_at n "prefix")
        by (unfold flag_at; rewrite oget_set_key_other by (reflexivity || discriminate); reflexivity).
      rewrite T, F. destruct (String.eqb_spec (string_at n "nodeType") "BinaryOperation") as [Y|Y]; [|reflexivity].
      destruct (B Y) as (B1 & B2).
      assert (O1 : string_at n "operator" = op) by (unfold string_at; now rewrite O).
      assert (O2 : string_at (set_key n "operator" (JStr op')) "operator" = op').
      { unfold string_at. rewrite oget_set_key_same; [reflexivity|reflexivity|]. destruct n; try discriminate. reflexivity. }
      rewrite O1, O2, B1, B2. reflexivity.
  - apply Forall_forall. intros c I. destruct (in_set_key _ _ _ _ (eq_refl : plain_key "operator" = true) I) as [->|J]; [now apply wg_scalar|].
    rewrite Forall_forall in Hc. now apply Hc.
Qed.

Lemma wg_take : forall n k v n0, plain_key k = true -> ~ In k telling -> take_key n k = Some (v, n0) -> wg n ->
  wg v /\ wg n0 /\ oget n k = Some v /\ forall q, In q telling -> oget n0 q = oget n q.
Proof.
  intros n k v n0 P T E Hn. rewrite take_key_plain in E by exact P. destruct n as [| | | | |o]; try discriminate.
  destruct (assoc k o) as [w|] eqn:A; [|discriminate]. injection E as -> <-.
  assert (S : JObj (obj_set k JNull o) = set_key (JObj o) k JNull) by (rewrite set_key_plain by exact P; now rewrite A).
  split; [exact (wg_oget (JObj o) k v Hn A)|]. split; [|split; [exact A|]].
  - rewrite S. apply wg_set_key; [exact P|exact T|exact Hn|now apply wg_scalar|].
    unfold binding. cbn. unfold place_needs. repeat match goal with |- context [if ?b then _ else _] => destruct b end; try lia.
    all: unfold left_needs, right_needs; try (destruct (_ =?s "**")); try lia.
    all: unfold level_of; destruct (assoc _ levels) as [l|] eqn:L; try lia.
    all: cbn [assoc levels] in L; repeat match type of L with context [if ?b then _ else _] => destruct b; [injection L as <-; lia|] end; discriminate.
  - intros q Q. cbn [oget]. apply assoc_obj_set_other. intros ->. contradiction.
Qed.

(** ** A change in one place *)
Lemma grouped_change : forall x x', both x x' -> wg x' -> binding x <= binding x' ->
  forall b v v', dif [] (fun _ => True) x x' b v v' -> wg v -> wg v' /\ binding v <= binding v'.
Proof.
  intros x x' B Hx' Bd b v v' D. induction D as [|b l1 u u' l2 D IH|b o1 k u u' o2 D IH P O]; intros H.
  - now split.
  - split; [|reflexivity]. apply wg_arr. apply wg_arr in H. apply Forall_app in H. destruct H as (H1 & H2). inversion H2; subst.
    apply Forall_app. split; [exact H1|]. constructor; [now apply IH|assumption].
  - apply wg_unfold in H. destruct H as (Hs & Hc).
    assert (Hu : wg u). { rewrite Forall_forall in Hc. apply Hc. cbn [children]. rewrite map_app. apply in_or_app. right. now left. }
    destruct (IH Hu) as (Hu' & Bu).
    assert (Ts : forall q, string_at (JObj (o1 ++ (k, u') :: o2)) q = string_at (JObj (o1 ++ (k, u) :: o2)) q).
    { intros q. unfold string_at. cbn [oget]. destruct (assoc_mid o1 o2 k u u' q) as [->|(_ & -> & ->)]; [reflexivity|].
      destruct (dif_kind _ _ _ _ _ _ _ B D) as [(?&?&->&->)|(?&?&->&->)]; reflexivity. }
    assert (Tf : forall q, flag_at (JObj (o1 ++ (k, u') :: o2)) q = flag_at (JObj (o1 ++ (k, u) :: o2)) q).
    { intros q. unfold flag_at. cbn [oget]. destruct (assoc_mid o1 o2 k u u' q) as [->|(_ & -> & ->)]; [reflexivity|].
      destruct (dif_kind _ _ _ _ _ _ _ B D) as [(?&?&->&->)|(?&?&->&->)]; reflexivity. }
    split; [|unfold binding; rewrite !Ts, !Tf; reflexivity]. apply wg_unfold. split.
    + intros q w E. assert (Pn : place_needs (JObj (o1 ++ (k, u') :: o2)) q = place_needs (JObj (o1 ++ (k, u) :: o2)) q)
        by (unfold place_needs; rewrite !Ts, !Tf; reflexivity).
      rewrite Pn. unfold has_field in E. cbn [oget] in E. destruct (assoc_mid o1 o2 k u u' q) as [Eq|(-> & Eq & Eq')].
      * apply Hs. unfold has_field. cbn [oget]. now rewrite Eq.
      * rewrite Eq' in E. injection E as <-. specialize (Hs k u Eq). lia.
    + cbn [children] in *. rewrite map_app in *. apply Forall_app in Hc. destruct Hc as (H1 & H2). cbn [map snd] in *. inversion H2; subst.
      apply Forall_app. split; [exact H1|]. now constructor.
Qed.

Lemma grouped_replaced : forall p x x' ast ast', subtree p ast = Some x -> replaced_at p x' ast ast' -> isobj x -> isobj x' ->
  wg x' -> binding x <= binding x' -> wg ast -> wg ast'.
Proof.
  intros p x x' ast ast' Hx R I I' W Bd H. rewrite (replaced_at_unique p x' ast ast' x Hx R).
  destruct (dif_at [] (fun _ => True) x x' p None ast Hx (fun _ _ X => X) (fun _ _ => Logic.I)) as (b & D & _).
  exact (proj1 (grouped_change x x' (conj I I') W Bd b _ _ D H)).
Qed.
