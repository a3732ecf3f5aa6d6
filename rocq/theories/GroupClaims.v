(** The proofs of C81. *)
From Coq Require Import String Ascii List NArith ZArith Arith Bool Lia.
From Verif Require Import Base Json JsonFacts Rng Permissions MutationType Traverse OpCommon SolMutators VyMutators Language
  Printer SolPrinter SpecTree SpecMutation SpecOps SpecAccept SpecPrinter SpecGroup OpFacts SolFacts AcceptFacts OpClaims
  TraverseFacts3 LocalFacts LocalOps LocalClaims GroupFacts GroupOps.
Import ListNotations.
Open Scope list_scope.
Open Scope string_scope.

Lemma field_oget : forall k v n n', field_becomes k v n n' -> oget n' k = Some v /\ forall q, q <> k -> oget n' q = oget n q.
Proof. intros k v n n' (o & o' & -> & -> & _ & _ & A & R). exact (conj A R). Qed.

Lemma accepted_type : forall t n, sol_accepts t n -> exists ty, is_sol ty n.
Proof.
  intros t n A. destruct t as [[]|[]]; cbn [sol_accepts] in A; unfold sol_binary in A;
    repeat match goal with H : _ /\ _ |- _ => destruct H end; eexists; eassumption.
Qed.

Lemma typed_isobj : forall n v, oget n "nodeType" = Some v -> isobj n.
Proof. intros [| | | | |o] v H; try discriminate. now exists o. Qed.

(** The binding does not get weaker. *)
Lemma sol_keeps_binding e t m fuel n r d :
  sol_mutator_for e t = Some m -> In t grouping_mutations -> mu_mutable m n = Ok true -> mu_mutate m fuel n r = Ok d ->
  binding n <= binding (md_node d).
Proof.
  intros Hm Hin M H. pose proof (proj1 (sol_accepts_iff e t m n Hm) M) as Acc.
  assert (NF : t <> Generic FunctionCall) by (intros ->; cbn in Hin; intuition discriminate).
  pose proof (sol_type_kept e t m fuel n r d Hm NF H) as T.
  assert (G : forall ty, is_sol ty n -> ty <> "BinaryOperation" -> ty <> "UnaryOperation" -> binding n <= binding (md_node d)) by (intros; eapply binding_type; eauto).
  destruct t as [[]|[]]; try (exfalso; cbn in Hin; intuition discriminate); cbn [sol_accepts] in Acc;
    try (repeat match goal with H : _ /\ _ |- _ => destruct H end; eapply G; [eassumption|discriminate|discriminate]).
  - destruct (sol_binop_claim e BitshiftBinaryOp bitshift _ fuel n r d eq_refl Hm M H) as (op & op' & T' & O & I & I' & N & F & C).
    apply field_oget in F. destruct F as (F & R). unfold binding, string_at. rewrite T. unfold is_sol, has_field in *. rewrite T', F, O.
    cbn in I, I'. intuition (subst; cbn; lia).
  - destruct (sol_unary_claim e _ fuel n r d Hm M H) as (p & op & op' & T' & P & O & I & I' & N & F).
    apply field_oget in F. destruct F as (F & R). unfold binding, string_at, flag_at. rewrite T, (R "prefix") by discriminate. unfold is_sol, has_field in *. rewrite T', P. apply le_n.
Qed.

Lemma grouping_kept_claim : forall e t m ps idm fuel i ast r ast' s,
  sol_mutator_for e t = Some m -> In t grouping_mutations -> make_mutation ps idm m fuel i ast r = Ok (ast', s) ->
  well_grouped ast -> well_grouped ast'.
Proof.
  intros e t m ps idm fuel i ast r ast' s Hm Hin H W.
  destruct (local_lemma _ _ _ _ _ _ _ _ _ H) as [(-> & _)|(p & x & d & Hx & A & R & P & _)]; [exact W|].
  assert (NF : t <> Generic FunctionCall) by (intros ->; cbn in Hin; intuition discriminate).
  pose proof (sol_type_kept e t m fuel x r d Hm NF R) as T.
  destruct (accepted_type t x (proj1 (sol_accepts_iff e t m x Hm) A)) as (ty & Ty). unfold is_sol, has_field in Ty.
  apply (grouped_replaced p x (md_node d) ast ast' Hx P).
  - exact (typed_isobj _ _ Ty).
  - rewrite Ty in T. exact (typed_isobj _ _ T).
  - exact (sol_keeps_grouping e t m fuel x r d Hm Hin A (wg_subtree p ast x W Hx) R).
  - exact (sol_keeps_binding e t m fuel x r d Hm Hin A R).
  - exact W.
Qed.

(** Operators of the same level. *)
Lemma same_level_needs : forall op op', In op (map fst levels) -> In op' (map fst levels) -> level_of op = level_of op' ->
  left_needs op' = left_needs op /\ right_needs op' = right_needs op.
Proof.
  intros op op' I I' L. destruct (needs_spec op I) as [(-> & A)|(A & B & C)], (needs_spec op' I') as [(-> & A')|(A' & B' & C')]; try split; lia.
Qed.

Lemma class_known : forall g class, sol_class g = Some class -> forall op, In op class -> In op (map fst levels).
Proof. intros g class G op I. destruct g; try discriminate G; injection G as <-; cbn in I |- *; intuition. Qed.

Lemma grouping_operator_claim : forall e g class m ps idm fuel i ast r ast' s,
  sol_class g = Some class -> sol_mutator_for e (Generic g) = Some m ->
  make_mutation ps idm m fuel i ast r = Ok (ast', s) -> well_grouped ast ->
  well_grouped ast' \/
  exists op op' cm, level_of op' <> level_of op /\ mk_comment s = Some cm /\ is_sol "Comment" cm /\
    has_field cm "text" (JStr (String.concat "" [show_mt (Generic g); " Mutator: changed '"; op; "' to '"; op'; "'"])).
Proof.
  intros e g class m ps idm fuel i ast r ast' s G Hm H W.
  destruct (local_lemma _ _ _ _ _ _ _ _ _ H) as [(-> & _)|(p & x & d & Hx & A & R & P & Cm & _)]; [now left|].
  destruct (sol_binop_claim e g class m fuel x r d G Hm A R) as (op & op' & T & O & I & I' & N & F & C).
  destruct (Nat.eq_dec (level_of op') (level_of op)) as [L|L]; [left|right].
  - pose proof (class_known _ _ G _ I) as K. pose proof (class_known _ _ G _ I') as K'.
    pose proof F as F0. apply field_oget in F0. destruct F0 as (F1 & F2).
    apply (grouped_replaced p x (md_node d) ast ast' Hx P).
    + exact (typed_isobj _ _ T).
    + pose proof (F2 "nodeType" ltac:(discriminate)) as F3. unfold is_sol, has_field in T. rewrite T in F3. exact (typed_isobj _ _ F3).
    + assert (D : md_node d = set_key x "operator" (JStr op')).
      { assert (Hd : md_node d = x \/ exists c, md_node d = set_str x "operator" c).
        { destruct g; try discriminate G; injection Hm as <-; cbn [mu_mutate sol_binop] in R; unfold sol_binop_mutate in R; ok_inv R; cbn [md_node done]; eauto. }
        destruct Hd as [Hd|(c & Hd)].
        - rewrite Hd in F1. unfold has_field in O. congruence.
        - rewrite Hd in *. now apply set_str_becomes. }
      rewrite D. apply (wg_set_operator _ op); [exact (wg_subtree p ast x W Hx)|exact O|]. intros _. now apply same_level_needs.
    + unfold binding, string_at. rewrite (F2 "nodeType") by discriminate. unfold is_sol, has_field in *. rewrite T, F1, O. cbn. lia.
    + exact W.
  - exists op, op'. eexists. split; [exact L|]. split; [rewrite Cm, C; reflexivity|]. split; reflexivity.
Qed.

(** Well grouped trees and their texts. *)
Lemma grouped_operations : forall n t, operations n t -> well_grouped n ->
  (forall p x op, subtree p n = Some x -> is_sol "BinaryOperation" x -> has_field x "operator" (JStr op) -> In op (map fst levels)) ->
  grouped t /\ root_binding t = binding n.
Proof.
  intros n t H. induction H as [n N|n op l r tl tr T O L R Hl IHl Hr IHr]; intros W K.
  - split; [exact I|reflexivity].
  - assert (Sub : forall k v, has_field n k v -> forall p x o, subtree p v = Some x -> is_sol "BinaryOperation" x -> has_field x "operator" (JStr o) -> In o (map fst levels)).
    { intros k v F p x o Hp. pose proof (oget_child _ _ _ F) as J. apply In_nth_error in J. destruct J as (i & J). apply (K (i :: p)). cbn [subtree]. now rewrite J. }
    destruct IHl as (Gl & Bl); [exact (wg_oget _ _ _ W L)|exact (Sub _ _ L)|].
    destruct IHr as (Gr & Br); [exact (wg_oget _ _ _ W R)|exact (Sub _ _ R)|].
    pose proof (W [] n _ _ eq_refl L) as Pl. pose proof (W [] n _ _ eq_refl R) as Pr.
    unfold place_needs, string_at in Pl, Pr. unfold is_sol, has_field in T, O. rewrite T, O in Pl, Pr. cbn in Pl, Pr.
    split.
    + cbn [grouped]. rewrite Bl, Br. split; [exact (K [] n op eq_refl T O)|]. now repeat split.
    + unfold binding, string_at. rewrite T, O. reflexivity.
Qed.

(** ** Programs with all their parentheses *)
Lemma grouped_change_at : forall x x', both x x' -> wg x' ->
  forall b v v', dif [] (fun _ => True) x x' b v v' ->
  (forall q n k, subtree q v = Some n -> has_field n k x -> place_needs n k <= binding x') ->
  wg v -> wg v' /\ (binding v <= binding v' \/ v = x /\ v' = x').
Proof.
  intros x x' B Hx' b v v' D. induction D as [|b l1 u u' l2 D IH|b o1 k u u' o2 D IH P O]; intros Pl H.
  - split; [exact Hx'|now right].
  - split; [|left; reflexivity]. apply wg_arr. apply wg_arr in H. apply Forall_app in H. destruct H as (H1 & H2). inversion H2; subst.
    apply Forall_app. split; [exact H1|]. constructor; [|assumption]. apply IH; [|assumption].
    intros q n k Hq. apply (Pl (length l1 :: q)). cbn [subtree children]. now rewrite nth_error_app2, Nat.sub_diag by lia.
  - apply wg_unfold in H. destruct H as (Hs & Hc).
    assert (Hu : wg u). { rewrite Forall_forall in Hc. apply Hc. cbn [children]. rewrite map_app. apply in_or_app. right. now left. }
    destruct (fun X => IH X Hu) as (Hu' & Bu).
    { intros q n k' Hq. apply (Pl (length o1 :: q)). cbn [subtree children]. rewrite map_app, nth_error_app2 by (rewrite map_length; lia).
      now rewrite map_length, Nat.sub_diag. }
    assert (Ts : forall q, string_at (JObj (o1 ++ (k, u') :: o2)) q = string_at (JObj (o1 ++ (k, u) :: o2)) q).
    { intros q. unfold string_at. cbn [oget]. destruct (assoc_mid o1 o2 k u u' q) as [->|(_ & -> & ->)]; [reflexivity|].
      destruct (dif_kind _ _ _ _ _ _ _ B D) as [(?&?&->&->)|(?&?&->&->)]; reflexivity. }
    assert (Tf : forall q, flag_at (JObj (o1 ++ (k, u') :: o2)) q = flag_at (JObj (o1 ++ (k, u) :: o2)) q).
    { intros q. unfold flag_at. cbn [oget]. destruct (assoc_mid o1 o2 k u u' q) as [->|(_ & -> & ->)]; [reflexivity|].
      destruct (dif_kind _ _ _ _ _ _ _ B D) as [(?&?&->&->)|(?&?&->&->)]; reflexivity. }
    split; [|left; unfold binding; rewrite !Ts, !Tf; reflexivity]. apply wg_unfold. split.
    + intros q w E. assert (Pn : place_needs (JObj (o1 ++ (k, u') :: o2)) q = place_needs (JObj (o1 ++ (k, u) :: o2)) q)
        by (unfold place_needs; rewrite !Ts, !Tf; reflexivity).
      rewrite Pn. unfold has_field in E. cbn [oget] in E. destruct (assoc_mid o1 o2 k u u' q) as [Eq|(-> & Eq & Eq')].
      * apply Hs. unfold has_field. cbn [oget]. now rewrite Eq.
      * rewrite Eq' in E. injection E as <-. destruct Bu as [Bu|(-> & ->)]; [specialize (Hs k u Eq); lia|exact (Pl [] _ k eq_refl Eq)].
    + cbn [children] in *. rewrite map_app in *. apply Forall_app in Hc. destruct Hc as (H1 & H2). cbn [map snd] in *. inversion H2; subst.
      apply Forall_app. split; [exact H1|]. now constructor.
Qed.

Lemma grouped_placed : forall p x x' ast ast', subtree p ast = Some x -> replaced_at p x' ast ast' -> isobj x -> isobj x' ->
  wg x' -> (forall q n k, subtree q ast = Some n -> has_field n k x -> place_needs n k <= binding x') -> wg ast -> wg ast'.
Proof.
  intros p x x' ast ast' Hx R I I' W Pl H. rewrite (replaced_at_unique p x' ast ast' x Hx R).
  destruct (dif_at [] (fun _ => True) x x' p None ast Hx (fun _ _ X => X) (fun _ _ => Logic.I)) as (b & D & _).
  exact (proj1 (grouped_change_at x x' (conj I I') W b _ _ D Pl H)).
Qed.

Lemma needs_le_13 : forall op, left_needs op <= 13 /\ right_needs op <= 13.
Proof.
  intros op. unfold left_needs, right_needs. destruct (op =?s "**"); [lia|]. unfold level_of. destruct (assoc op levels) as [l|] eqn:L; [|lia].
  cbn [assoc levels] in L. repeat match type of L with context [if ?b then _ else _] => destruct b; [injection L as <-; lia|] end. discriminate.
Qed.

(** A binary operation with tight operands is well grouped. *)
Lemma wg_binary : forall n, is_sol "BinaryOperation" n -> Forall wg (children n) ->
  (forall k v, has_field n k v -> k = "leftExpression" \/ k = "rightExpression" -> 13 <= binding v) -> wg n.
Proof.
  intros n T C H. apply wg_unfold. split; [|exact C]. intros k v E. specialize (H k v E). unfold place_needs, string_at.
  unfold is_sol, has_field in T. rewrite T. cbn [String.eqb Ascii.eqb Bool.eqb].
  destruct (String.eqb_spec k "leftExpression") as [->|N]; [pose proof (needs_le_13 (string_at n "operator")) as (A & _); unfold string_at in A; specialize (H (or_introl eq_refl)); lia|].
  destruct (String.eqb_spec k "rightExpression") as [->|N']; [pose proof (needs_le_13 (string_at n "operator")) as (_ & A); unfold string_at in A; specialize (H (or_intror eq_refl)); lia|].
  apply Nat.le_0_l.
Qed.

Lemma took : forall n k v n0, take_key n k = Some (v, n0) -> plain_key k = true ->
  In v (children n) /\ forall c, In c (children n0) -> c = JNull \/ In c (children n).
Proof.
  intros n k v n0 E P. rewrite take_key_plain in E by exact P. destruct n as [| | | | |o]; try discriminate.
  destruct (assoc k o) as [w|] eqn:A; [|discriminate]. injection E as -> <-.
  split; [exact (oget_child (JObj o) k v A)|]. intros c I. exact (in_obj_set _ _ _ _ I).
Qed.

(** The operators that change a binary operation change its operands' order at
    most. *)
Lemma binary_change : forall e t m fuel n r d, sol_mutator_for e t = Some m ->
  (exists g class, t = Generic g /\ sol_class g = Some class) \/ t = Generic SwapOperatorArguments ->
  mu_mutable m n = Ok true -> mu_mutate m fuel n r = Ok d ->
  is_sol "BinaryOperation" n /\ is_sol "BinaryOperation" (md_node d) /\
  (forall c, In c (children (md_node d)) -> In c (children n) \/ children c = []) /\
  (forall k v, has_field (md_node d) k v -> k = "leftExpression" \/ k = "rightExpression" ->
     has_field n "leftExpression" v \/ has_field n "rightExpression" v).
Proof.
  intros e t m fuel n r d Hm [(g & class & -> & G)| ->] A R.
  - destruct (sol_binop_claim e g class m fuel n r d G Hm A R) as (op & op' & T & O & I & I' & N & F & C).
    pose proof (field_oget _ _ _ _ F) as (F1 & F2).
    assert (Hd : md_node d = n \/ exists c, md_node d = set_str n "operator" c).
    { destruct g; try discriminate G; injection Hm as <-; cbn [mu_mutate sol_binop] in R; unfold sol_binop_mutate in R; ok_inv R; cbn [md_node done]; eauto. }
    split; [exact T|]. split; [unfold is_sol, has_field in *; rewrite (F2 "nodeType") by discriminate; exact T|]. split.
    + intros c J. destruct Hd as [Hd|(v & Hd)]; rewrite Hd in J; [now left|]. unfold set_str in J. destruct (in_set_key _ "operator" _ _ eq_refl J) as [->|J']; [now right|now left].
    + intros k v E K. unfold has_field in *. rewrite F2 in E by (destruct K as [->| ->]; discriminate). destruct K as [->| ->]; tauto.
  - injection Hm as <-. cbn [mu_mutable mu_mutate sol_swapop] in A, R.
    destruct (sol_swapop_fact _ _ _ _ _ A R) as (op & a & b & T & O & I & La & Lb & F).
    destruct F as (o & o' & -> & Ed & Ks & Fa & Fb & Fo). rewrite Ed.
    split; [exact T|]. split; [unfold is_sol, has_field in *; cbn [oget] in *; rewrite Fo by discriminate; exact T|]. split.
    + rewrite <- Ed. intros c J. unfold sol_swapop_mutate in R. ok_inv R. cbn [md_node done] in J.
      destruct (took _ _ _ _ E (eq_refl : plain_key "leftExpression" = true)) as (V & C). destruct (took _ _ _ _ E0 (eq_refl : plain_key "rightExpression" = true)) as (V' & C').
      assert (G : forall c, In c (children j0) -> In c (children (JObj o)) \/ children c = []).
      { intros x X. destruct (C x X) as [->|Y]; [now right|now left]. }
      destruct (in_set_key _ "rightExpression" _ _ eq_refl J) as [->|J1]; [now left|].
      destruct (in_set_key _ "leftExpression" _ _ eq_refl J1) as [->|J2]; [now apply G|].
      destruct (C' c J2) as [->|J3]; [now right|now apply G].
    + intros k v E K. unfold has_field in *. cbn [oget] in *. destruct K as [->| ->]; [rewrite Fa in E|rewrite Fb in E]; injection E as <-; tauto.
Qed.

Lemma parenthesised_claim : forall e t m ps idm fuel i ast r ast' s,
  sol_mutator_for e t = Some m -> make_mutation ps idm m fuel i ast r = Ok (ast', s) -> parenthesised ast ->
  (t = Generic FunctionCall -> forall p n l a, subtree p ast = Some n -> is_sol "FunctionCall" n ->
     has_field n "arguments" (JArr l) -> In a l -> (exists ty, is_sol ty a) /\ binding a = 14) ->
  well_grouped ast'.
Proof.
  intros e t m ps idm fuel i ast r ast' s Hm H (W & Pa) Fc.
  assert (K : In t grouping_mutations \/ (exists g class, t = Generic g /\ sol_class g = Some class) \/ t = Generic SwapOperatorArguments \/ t = Generic FunctionCall).
  { destruct t as [[]|[]]; cbn; try tauto; right; left; eexists; eexists; (split; [reflexivity|reflexivity]). }
  destruct K as [K|K]; [exact (grouping_kept_claim e t m ps idm fuel i ast r ast' s Hm K H W)|].
  destruct (local_lemma _ _ _ _ _ _ _ _ _ H) as [(-> & _)|(p & x & d & Hx & A & R & P & _)]; [exact W|].
  assert (Wx : wg x) by exact (wg_subtree p ast x W Hx).
  assert (K' : ((exists g class, t = Generic g /\ sol_class g = Some class) \/ t = Generic SwapOperatorArguments) \/ t = Generic FunctionCall) by tauto.
  destruct K' as [K'| ->].
  - destruct (binary_change e t m fuel x r d Hm K' A R) as (T & T' & C & F).
    apply (grouped_placed p x (md_node d) ast ast' Hx P).
    + exact (typed_isobj _ _ T).
    + exact (typed_isobj _ _ T').
    + apply wg_binary; [exact T'| |].
      * apply Forall_forall. intros c I. destruct (C c I) as [J|J]; [|now apply wg_scalar].
        apply wg_unfold in Wx. destruct Wx as (_ & Fx). rewrite Forall_forall in Fx. now apply Fx.
      * intros k v E Q. destruct (F k v E Q) as [G|G].
        -- apply (proj2 (Pa p x _ v Hx G)). split; [exact T|now left].
        -- apply (proj2 (Pa p x _ v Hx G)). split; [exact T|now right].
    + intros q n k Hq E. destruct (Nat.eq_dec (place_needs n k) 0) as [Z|Z]; [lia|]. now destruct (proj1 (Pa q n k x Hq E) Z).
    + exact W.
  - destruct (sol_call_claim e m fuel x r d Hm A R) as (l & T & L & I & _).
    destruct (Fc eq_refl p x l _ Hx T L I) as ((ty & Ty) & B).
    apply (grouped_replaced p x (md_node d) ast ast' Hx P).
    + exact (typed_isobj _ _ T).
    + exact (typed_isobj _ _ Ty).
    + pose proof (wg_oget _ _ _ Wx L) as Wl. apply wg_arr in Wl. rewrite Forall_forall in Wl. now apply Wl.
    + rewrite B. unfold binding. repeat match goal with |- context [if ?b then _ else _] => destruct b end; try lia.
      unfold level_of; destruct (assoc _ levels) as [q|] eqn:L'; [|lia].
      cbn [assoc levels] in L'; repeat match type of L' with context [if ?b then _ else _] => destruct b; [injection L' as <-; lia|] end; discriminate.
    + exact W.
Qed.

(** Two trees with the same operands and operators in a row. *)
Lemma one_reading_claim : forall n n' t t', well_grouped n -> well_grouped n' -> operations n t -> operations n' t' ->
  (forall p x op, subtree p n = Some x \/ subtree p n' = Some x -> is_sol "BinaryOperation" x -> has_field x "operator" (JStr op) -> In op (map fst levels)) ->
  row t = row t' -> t = t'.
Proof.
  intros n n' t t' W W' O O' K E. apply one_reading; [| |exact E].
  - apply (grouped_operations n t O W). intros p x op H. apply (K p x op). now left.
  - apply (grouped_operations n' t' O' W'). intros p x op H. apply (K p x op). now right.
Qed.
