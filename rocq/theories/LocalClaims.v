(** What a mutation changes of the printed program: the claims. *)
From Coq Require Import String Ascii List NArith ZArith Arith Bool Lia.
From Verif Require Import Base Json JsonFacts Rng Permissions MutationType Traverse OpCommon SolMutators VyMutators Language Printer SolPrinter VyPrinter
  SpecTree SpecMutation SpecOps SpecTotal SpecAccept SpecPrinter SpecLocal SpecSolLocal SpecVyLocal TraverseFacts3 OpFacts AcceptFacts OpClaims
  EmitFacts SolEmit VyEmit IdealFacts LocalFacts SolLocal VyLocal LocalOps LocalText.
Import ListNotations.
Open Scope string_scope.
Open Scope list_scope.

Lemma get_str_obj : forall x k s, plain_key k = true -> get_str x k = Some s -> isobj x.
Proof. intros x k s P H. apply get_str_Some in H; [|exact P]. destruct x; try discriminate. eexists; reflexivity. Qed.

(** ** Any one-node change *)
Lemma sol_requests_claim : forall p x x' n n' c,
  subtree p n = Some x -> replaced_at p x' n n' -> alike_for_parent x x' ->
  (forall k, keeper p n = Some k -> ~ In k sol_inspected) ->
  changed_at sol_emit x x' (sol_emit c n) (sol_emit c n').
Proof.
  intros p x x' n n' c Hx R A K. rewrite (replaced_at_unique p x' n n' x Hx R).
  destruct (dif_at sol_inspected (fun _ => True) x x' p None n Hx K (fun _ _ => I)) as (b & D & _).
  refine (SolLocal.emit_changed x x' _ A (S (jdepth n)) n _ c b (Nat.lt_succ_diag_r _) D).
  destruct A as (s & s' & E & E' & _). split; (eapply get_str_obj; [|eassumption]; reflexivity).
Qed.

Lemma vy_requests_claim : forall p x x' n n' c,
  subtree p n = Some x -> replaced_at p x' n n' -> vy_alike_for_parent x x' ->
  (forall k, keeper p n = Some k -> ~ In k vy_inspected) -> (forall y, above p n y -> no_vy_comment y) ->
  changed_at vy_emit x x' (vy_emit c n) (vy_emit c n').
Proof.
  intros p x x' n n' c Hx R A K U. rewrite (replaced_at_unique p x' n n' x Hx R).
  destruct (dif_at vy_inspected no_vy_comment x x' p None n Hx K U) as (b & D & _).
  refine (VyLocal.emit_changed x x' _ A (S (jdepth n)) n _ c b (Nat.lt_succ_diag_r _) D).
  destruct A as (s & s' & E & E' & _). split; (eapply get_str_obj; [|eassumption]; reflexivity).
Qed.

(** ** Mutants *)
Lemma sol_accepts_type t n : sol_accepts t n -> exists s, is_sol s n.
Proof.
  destruct t as [g|k]; [destruct g|destruct k]; cbn [sol_accepts]; unfold sol_binary; intros (H & _); eauto.
Qed.

Lemma sol_result_alike e t m fuel n r d :
  sol_mutator_for e t = Some m -> mu_mutable m n = Ok true -> mu_mutate m fuel n r = Ok d ->
  (t = Generic FunctionCall -> forall l a, has_field n "arguments" (JArr l) -> In a l -> expression_like a) ->
  alike_for_parent n (md_node d).
Proof.
  intros M A R F. pose proof (proj1 (sol_accepts_iff e t m n M) A) as Hacc.
  destruct (mutation_type_eq_dec t (Generic FunctionCall)) as [->|N].
  - destruct (sol_call_claim _ _ _ _ _ _ M A R) as (l & T & L & I & _).
    destruct (F eq_refl l _ L I) as (s & E & N1 & N2). exists "FunctionCall", s.
    split; [apply get_str_Some; [reflexivity|exact T]|]. split; [exact E|]. split; split; congruence.
  - destruct (sol_accepts_type t n Hacc) as (s & T). exists s, s. pose proof (sol_type_kept _ _ _ _ _ _ _ M N R) as K.
    unfold is_sol, has_field in T. rewrite T in K.
    split; [apply get_str_Some; [reflexivity|exact T]|]. split; [apply get_str_Some; [reflexivity|exact K]|]. tauto.
Qed.

Lemma sol_mutant_claim : forall e t m ps idm fuel i ast r ast' s c,
  sol_mutator_for e t = Some m -> make_mutation ps idm m fuel i ast r = Ok (ast', s) ->
  never_under sol_inspected (sol_accepts t) ast ->
  (t = Generic FunctionCall -> forall p n l a, subtree p ast = Some n -> is_sol "FunctionCall" n ->
     has_field n "arguments" (JArr l) -> In a l -> expression_like a) ->
  ast' = ast \/
  exists p x x', subtree p ast = Some x /\ sol_accepts t x /\ replaced_at p x' ast ast' /\
    changed_at sol_emit x x' (sol_emit c ast) (sol_emit c ast').
Proof.
  intros e t m ps idm fuel i ast r ast' s c M H K F.
  destruct (local_lemma _ _ _ _ _ _ _ _ _ H) as [(E & _)|(p & x & d & Hx & A & R & P & _)]; [now left|right].
  pose proof (proj1 (sol_accepts_iff e t m x M) A) as Acc.
  exists p, x, (md_node d). split; [exact Hx|]. split; [exact Acc|]. split; [exact P|].
  apply (sol_requests_claim p); [exact Hx|exact P| |intros k; now apply (K p x)].
  apply (sol_result_alike e t m fuel x r d M A R). intros -> l a. apply (F eq_refl p x); [exact Hx|apply Acc].
Qed.

Lemma vy_accepts_type e t n : vy_accepts e t n -> exists s, is_vy s n.
Proof.
  destruct t as [g|k]; [destruct g|destruct k]; cbn [vy_accepts]; unfold vy_binary; intros H; intuition eauto.
Qed.

Lemma vy_result_alike e t m fuel n r d :
  vy_mutator_for e t = Some m -> mu_mutable m n = Ok true -> mu_mutate m fuel n r = Ok d ->
  (t = Generic FunctionCall -> forall l a, has_field n "args" (JArr l) -> In a l -> vy_atomic a) ->
  (t = Generic UnaryOp -> forall a, has_field n "operand" a -> vy_atomic a) ->
  vy_alike_for_parent n (md_node d).
Proof.
  intros M A R F U. pose proof (proj1 (vy_accepts_iff e t m n M) A) as Hacc.
  destruct (mutation_type_eq_dec t (Generic FunctionCall)) as [->|N].
  { destruct (vy_call_claim _ _ _ _ _ _ M A R) as (l & T & L & I).
    destruct (F eq_refl l _ L I) as (s & E & N1). exists "Call", s.
    split; [apply get_str_Some; [reflexivity|exact T]|]. split; [exact E|]. split; intros J; [|tauto].
    cbn in J. intuition discriminate. }
  destruct (mutation_type_eq_dec t (Generic UnaryOp)) as [->|N'].
  { destruct (vy_unary_claim _ _ _ _ _ _ M A R) as (T & L).
    destruct (U eq_refl _ L) as (s & E & N1). exists "UnaryOp", s.
    split; [apply get_str_Some; [reflexivity|exact T]|]. split; [exact E|]. split; intros J; [|tauto].
    cbn in J. intuition discriminate. }
  destruct (vy_accepts_type e t n Hacc) as (s & T). exists s, s. pose proof (vy_type_kept _ _ _ _ _ _ _ M N N' R) as K.
  unfold is_vy, has_field in T. rewrite T in K.
  split; [apply get_str_Some; [reflexivity|exact T]|]. split; [apply get_str_Some; [reflexivity|exact K]|]. tauto.
Qed.

Lemma vy_mutant_claim : forall e t m ps idm fuel i ast r ast' s c,
  vy_mutator_for e t = Some m -> make_mutation ps idm m fuel i ast r = Ok (ast', s) ->
  never_under vy_inspected (vy_accepts e t) ast -> only_below no_vy_comment (vy_accepts e t) ast ->
  (t = Generic FunctionCall -> forall p n l a, subtree p ast = Some n -> is_vy "Call" n ->
     has_field n "args" (JArr l) -> In a l -> vy_atomic a) ->
  (t = Generic UnaryOp -> forall p n a, subtree p ast = Some n -> is_vy "UnaryOp" n -> has_field n "operand" a -> vy_atomic a) ->
  ast' = ast \/
  exists p x x', subtree p ast = Some x /\ vy_accepts e t x /\ replaced_at p x' ast ast' /\
    changed_at vy_emit x x' (vy_emit c ast) (vy_emit c ast').
Proof.
  intros e t m ps idm fuel i ast r ast' s c M H K U F G.
  destruct (local_lemma _ _ _ _ _ _ _ _ _ H) as [(E & _)|(p & x & d & Hx & A & R & P & _)]; [now left|right].
  pose proof (proj1 (vy_accepts_iff e t m x M) A) as Acc.
  exists p, x, (md_node d). split; [exact Hx|]. split; [exact Acc|]. split; [exact P|].
  apply (vy_requests_claim p); [exact Hx|exact P| |intros k; now apply (K p x)|intros y; now apply (U p x)].
  apply (vy_result_alike e t m fuel x r d M A R).
  - intros -> l a. apply (F eq_refl p x); [exact Hx|apply Acc].
  - intros -> a. apply (G eq_refl p x); [exact Hx|exact Acc].
Qed.

(** ** Texts *)
Lemma sol_text_claim : forall x x' c n n' t t',
  changed_at sol_emit x x' (sol_emit c n) (sol_emit c n') ->
  simple_requests (sol_emit c n) -> simple_requests (sol_emit c n') ->
  text_of_requests 0 (sol_emit c n) t -> text_of_requests 0 (sol_emit c n') t' ->
  differ_in_place sol_emit x x' t t'.
Proof. intros x x' c n n' t t' H. apply changed_text; [exact sol_emit_balanced|exact H]. Qed.

Lemma vy_text_claim : forall x x' c n n' t t',
  changed_at vy_emit x x' (vy_emit c n) (vy_emit c n') ->
  simple_requests (vy_emit c n) -> simple_requests (vy_emit c n') ->
  text_of_requests 0 (vy_emit c n) t -> text_of_requests 0 (vy_emit c n') t' ->
  differ_in_place vy_emit x x' t t'.
Proof. intros x x' c n n' t t' H. apply changed_text; [exact vy_emit_balanced|exact H]. Qed.

(** ** One token *)
Lemma fb_new k v n n' : field_becomes k v n n' -> oget n' k = Some v.
Proof. intros (o & o' & -> & -> & _ & _ & H & _). exact H. Qed.
Lemma fb_old k v n n' k' : field_becomes k v n n' -> k' <> k -> oget n' k' = oget n k'.
Proof. intros (o & o' & -> & -> & _ & _ & _ & H) N. now apply H. Qed.
Lemma fb_str k v n n' k' : field_becomes k v n n' -> k' <> k -> plain_key k' = true -> get_str n' k' = get_str n k'.
Proof. intros F N P. rewrite !get_str_plain by exact P. now rewrite (fb_old k v n n' k' F N). Qed.

Lemma token_mid w w' a b b' c : b = b' -> a = c -> token_changes w w' (a ++ Tok w :: b) (c ++ Tok w' :: b').
Proof. intros -> ->. now exists c, b'. Qed.

Lemma one_token_changes : forall C (print : C -> json -> list cmd) x x' l l' w w',
  (forall c, print c x = print c x' \/ token_changes w w' (print c x) (print c x')) -> changed_at print x x' l l' ->
  l = l' \/ token_changes w w' l l'.
Proof.
  intros C print x x' l l' w w' T H. destruct H as [l|before c after]; [now left|].
  destruct (T c) as [E|E]; [left; now rewrite E|right]. destruct E as (a & b & -> & ->). exists (before ++ a), (b ++ after). rewrite <- !app_assoc. now split.
Qed.

Lemma token_word : forall w w' l l' t t', token_changes w w' l l' ->
  simple_requests l -> simple_requests l' -> text_of_requests 0 l t -> text_of_requests 0 l' t' -> word_changes w w' t t'.
Proof.
  intros w w' l l' t t' (a & b & -> & ->) S S' T T'.
  rewrite (text_unique _ _ _ _ T (text_ideal 0 _ S)), (text_unique _ _ _ _ T' (text_ideal 0 _ S')).
  exists (ideal 4 0 a), (ideal 4 (level 0 a) b). rewrite !ideal_level. cbn [ideal]. now split.
Qed.

Lemma sol_binop_token : forall x x' op op' c, is_sol "BinaryOperation" x -> has_field x "operator" (JStr op) ->
  field_becomes "operator" (JStr op') x x' -> token_changes op op' (sol_emit c x) (sol_emit c x').
Proof.
  intros x x' op op' c T O F.
  assert (T' : is_sol "BinaryOperation" x') by (unfold is_sol, has_field; rewrite (fb_old _ _ _ _ "nodeType" F); [exact T|discriminate]).
  rewrite !sol_emit_unfold. unfold sol_printer_for.
  rewrite (proj2 (get_str_Some x "nodeType" _ eq_refl) T), (proj2 (get_str_Some x' "nodeType" _ eq_refl) T').
  change (assoc "BinaryOperation" sol_table) with (Some s_BinaryOperation). cbn iota. unfold s_BinaryOperation, s_operator, sub.
  rewrite (proj2 (get_str_Some x "operator" _ eq_refl) O), (proj2 (get_str_Some x' "operator" _ eq_refl) (fb_new _ _ _ _ F)). cbn [opt].
  rewrite (fb_old _ _ _ _ "leftExpression" F), (fb_old _ _ _ _ "rightExpression" F) by discriminate.
  exists (opt (oget x "leftExpression") (sol_emit c) ++ [Space]), (Space :: opt (oget x "rightExpression") (sol_emit c)).
  rewrite <- !app_assoc. now split.
Qed.

Lemma sol_unary_token : forall x x' p op op' c, is_sol "UnaryOperation" x -> has_field x "prefix" (JBool p) -> has_field x "operator" (JStr op) ->
  op <> "delete" -> op' <> "delete" ->
  field_becomes "operator" (JStr op') x x' -> token_changes op op' (sol_emit c x) (sol_emit c x').
Proof.
  intros x x' p op op' c T P O N N' F.
  assert (T' : is_sol "UnaryOperation" x') by (unfold is_sol, has_field; rewrite (fb_old _ _ _ _ "nodeType" F); [exact T|discriminate]).
  rewrite !sol_emit_unfold. unfold sol_printer_for.
  rewrite (proj2 (get_str_Some x "nodeType" _ eq_refl) T), (proj2 (get_str_Some x' "nodeType" _ eq_refl) T').
  change (assoc "UnaryOperation" sol_table) with (Some s_UnaryOperation). cbn iota. unfold s_UnaryOperation, tok_of, sub.
  rewrite (proj2 (get_str_Some x "operator" _ eq_refl) O), (proj2 (get_str_Some x' "operator" _ eq_refl) (fb_new _ _ _ _ F)).
  assert (B : get_bool x "prefix" = Some p) by (unfold get_bool; rewrite kget_plain by reflexivity; unfold has_field in P; now rewrite P).
  assert (B' : get_bool x' "prefix" = Some p).
  { unfold get_bool. rewrite kget_plain by reflexivity. rewrite (fb_old _ _ _ _ "prefix" F) by discriminate. unfold has_field in P. now rewrite P. }
  rewrite B, B', (fb_old _ _ _ _ "subExpression" F) by discriminate. cbn [opt].
  apply String.eqb_neq in N, N'. rewrite N, N'. destruct p; cbn [when negb app].
  - exists [], (opt (oget x "subExpression") (sol_emit c) ++ []). now split.
  - exists (opt (oget x "subExpression") (sol_emit c)), []. now split.
Qed.

Lemma sol_member_token : forall x x' op op' c, is_sol "MemberAccess" x -> has_field x "memberName" (JStr op) ->
  field_becomes "memberName" (JStr op') x x' -> token_changes op op' (sol_emit c x) (sol_emit c x').
Proof.
  intros x x' op op' c T O F.
  assert (T' : is_sol "MemberAccess" x') by (unfold is_sol, has_field; rewrite (fb_old _ _ _ _ "nodeType" F); [exact T|discriminate]).
  rewrite !sol_emit_unfold. unfold sol_printer_for.
  rewrite (proj2 (get_str_Some x "nodeType" _ eq_refl) T), (proj2 (get_str_Some x' "nodeType" _ eq_refl) T').
  change (assoc "MemberAccess" sol_table) with (Some s_MemberAccess). cbn iota. unfold s_MemberAccess, tok_of, sub.
  rewrite (proj2 (get_str_Some x "memberName" _ eq_refl) O), (proj2 (get_str_Some x' "memberName" _ eq_refl) (fb_new _ _ _ _ F)). cbn [opt].
  rewrite (fb_old _ _ _ _ "expression" F) by discriminate.
  exists (opt (oget x "expression") (sol_emit c) ++ [Tok "."]), []. rewrite <- !app_assoc. now split.
Qed.

Lemma sol_number_token : forall x x' v v' c, is_sol "Literal" x -> has_field x "kind" (JStr "number") -> has_field x "value" (JStr v) ->
  field_becomes "value" (JStr v') x x' -> token_changes v v' (sol_emit c x) (sol_emit c x').
Proof.
  intros x x' v v' c T K O F.
  assert (T' : is_sol "Literal" x') by (unfold is_sol, has_field; rewrite (fb_old _ _ _ _ "nodeType" F); [exact T|discriminate]).
  rewrite !sol_emit_unfold. unfold sol_printer_for.
  rewrite (proj2 (get_str_Some x "nodeType" _ eq_refl) T), (proj2 (get_str_Some x' "nodeType" _ eq_refl) T').
  change (assoc "Literal" sol_table) with (Some s_Literal). cbn iota. unfold s_Literal.
  rewrite (proj2 (get_str_Some x "value" _ eq_refl) O), (proj2 (get_str_Some x' "value" _ eq_refl) (fb_new _ _ _ _ F)). cbn [opt].
  rewrite (fb_str _ _ _ _ "kind" F), (fb_str _ _ _ _ "subdenomination" F) by (discriminate || reflexivity).
  rewrite (proj2 (get_str_Some x "kind" _ eq_refl) K).
  change ("number" =?s "string") with false. change ("number" =?s "unicodeString") with false. cbn iota.
  eexists [], _. now split.
Qed.

Lemma sol_step : forall e t m ps idm fuel i ast r ast' s c,
  sol_mutator_for e t = Some m -> t <> Generic FunctionCall -> make_mutation ps idm m fuel i ast r = Ok (ast', s) ->
  never_under sol_inspected (sol_accepts t) ast ->
  ast' = ast \/
  exists x d, mu_mutable m x = Ok true /\ mu_mutate m fuel x r = Ok d /\ mk_comment s = md_comment d /\
    changed_at sol_emit x (md_node d) (sol_emit c ast) (sol_emit c ast').
Proof.
  intros e t m ps idm fuel i ast r ast' s c M NF H K.
  destruct (local_lemma _ _ _ _ _ _ _ _ _ H) as [(E & _)|(p & x & d & Hx & A & R & P & Cm & _)]; [now left|right].
  exists x, d. split; [exact A|]. split; [exact R|]. split; [exact Cm|].
  apply (sol_requests_claim p); [exact Hx|exact P| |intros k; apply (K p x); [exact Hx|now apply (sol_accepts_iff e t m)]].
  apply (sol_result_alike e t m fuel x r d M A R). congruence.
Qed.

Lemma sol_operator_claim : forall e g class m ps idm fuel i ast r ast' s c,
  sol_class g = Some class -> sol_mutator_for e (Generic g) = Some m ->
  make_mutation ps idm m fuel i ast r = Ok (ast', s) -> never_under sol_inspected (sol_binary class) ast ->
  sol_emit c ast = sol_emit c ast' \/
  exists op op', In op class /\ In op' class /\ op' <> op /\
    (exists cm, mk_comment s = Some cm /\ is_sol "Comment" cm /\
       has_field cm "text" (JStr (String.concat "" [show_mt (Generic g); " Mutator: changed '"; op; "' to '"; op'; "'"]))) /\
    token_changes op op' (sol_emit c ast) (sol_emit c ast').
Proof.
  intros e g class m ps idm fuel i ast r ast' s c G M H K.
  destruct (sol_step e (Generic g) m ps idm fuel i ast r ast' s c M) as [->|(x & d & A & R & Cm & Ch)]; [destruct g; discriminate|exact H| |now left|].
  - intros p x k Hx Acc. apply (K p x k Hx). destruct g; try discriminate G; injection G as <-; exact Acc.
  - destruct (sol_binop_claim _ _ _ _ _ _ _ _ G M A R) as (op & op' & T & O & I & I' & N & F & C).
    destruct (one_token_changes _ _ _ _ _ _ op op' (fun c => or_intror (sol_binop_token _ _ _ _ c T O F)) Ch) as [E|E]; [now left|right].
    exists op, op'. rewrite Cm, C. repeat (split; [assumption|]). split; [|exact E].
    eexists. split; [reflexivity|]. split; reflexivity.
Qed.

Lemma sol_unary_word_claim : forall e m ps idm fuel i ast r ast' s c,
  sol_mutator_for e (Generic UnaryOp) = Some m ->
  make_mutation ps idm m fuel i ast r = Ok (ast', s) -> never_under sol_inspected (is_sol "UnaryOperation") ast ->
  sol_emit c ast = sol_emit c ast' \/
  exists op op', op' <> op /\ (In op prefix_ops /\ In op' prefix_ops \/ In op postfix_ops /\ In op' postfix_ops) /\
    token_changes op op' (sol_emit c ast) (sol_emit c ast').
Proof.
  intros e m ps idm fuel i ast r ast' s c M H K.
  destruct (sol_step e (Generic UnaryOp) m ps idm fuel i ast r ast' s c M) as [->|(x & d & A & R & Cm & Ch)]; [discriminate|exact H| |now left|].
  - intros p x k Hx Acc. apply (K p x k Hx), Acc.
  - destruct (sol_unary_claim _ _ _ _ _ _ M A R) as (p & op & op' & T & P & O & I & I' & N & F).
    assert (D : forall o, In o (if p then prefix_ops else postfix_ops) -> o <> "delete").
    { intros o J. destruct p; cbn in J; intuition congruence. }
    destruct (one_token_changes _ _ _ _ _ _ op op' (fun c => or_intror (sol_unary_token _ _ _ _ _ c T P O (D _ I) (D _ I') F)) Ch) as [E|E]; [now left|right].
    exists op, op'. split; [exact N|]. split; [destruct p; tauto|exact E].
Qed.

Lemma sol_delegate_word_claim : forall e m ps idm fuel i ast r ast' s c,
  sol_mutator_for e (Solidity ElimDelegateCall) = Some m ->
  make_mutation ps idm m fuel i ast r = Ok (ast', s) -> never_under sol_inspected (is_sol "MemberAccess") ast ->
  sol_emit c ast = sol_emit c ast' \/ token_changes "delegatecall" "call" (sol_emit c ast) (sol_emit c ast').
Proof.
  intros e m ps idm fuel i ast r ast' s c M H K.
  destruct (sol_step e (Solidity ElimDelegateCall) m ps idm fuel i ast r ast' s c M) as [->|(x & d & A & R & Cm & Ch)]; [discriminate|exact H| |now left|].
  - intros p x k Hx Acc. apply (K p x k Hx), Acc.
  - destruct (sol_delegate_claim _ _ _ _ _ _ M A R) as (T & O & F).
    exact (one_token_changes _ _ _ _ _ _ _ _ (fun c => or_intror (sol_member_token _ _ _ _ c T O F)) Ch).
Qed.

Lemma sol_number_word_claim : forall e m ps idm fuel i ast r ast' s c,
  sol_mutator_for e (Generic Integer) = Some m ->
  make_mutation ps idm m fuel i ast r = Ok (ast', s) -> never_under sol_inspected (is_sol "Literal") ast ->
  sol_emit c ast = sol_emit c ast' \/ exists v v', token_changes v v' (sol_emit c ast) (sol_emit c ast').
Proof.
  intros e m ps idm fuel i ast r ast' s c M H K.
  destruct (sol_step e (Generic Integer) m ps idm fuel i ast r ast' s c M) as [->|(x & d & A & R & Cm & Ch)]; [discriminate|exact H| |now left|].
  - intros p x k Hx Acc. apply (K p x k Hx), Acc.
  - destruct (sol_int_claim _ _ _ _ _ _ M A R) as (v & v' & T & Kd & O & F & _).
    destruct (one_token_changes _ _ _ _ _ _ _ _ (fun c => or_intror (sol_number_token _ _ _ _ c T Kd O F)) Ch) as [E|E]; eauto.
Qed.

(** Vyper. *)
Lemma vy_step : forall e t m ps idm fuel i ast r ast' s c,
  vy_mutator_for e t = Some m -> t <> Generic FunctionCall -> t <> Generic UnaryOp -> make_mutation ps idm m fuel i ast r = Ok (ast', s) ->
  never_under vy_inspected (vy_accepts e t) ast -> only_below no_vy_comment (vy_accepts e t) ast ->
  ast' = ast \/
  exists p x d, subtree p ast = Some x /\ mu_mutable m x = Ok true /\ mu_mutate m fuel x r = Ok d /\ mk_comment s = md_comment d /\
    changed_at vy_emit x (md_node d) (vy_emit c ast) (vy_emit c ast').
Proof.
  intros e t m ps idm fuel i ast r ast' s c M NF NU H K U.
  destruct (local_lemma _ _ _ _ _ _ _ _ _ H) as [(E & _)|(p & x & d & Hx & A & R & P & Cm & _)]; [now left|right].
  exists p, x, d. split; [exact Hx|]. split; [exact A|]. split; [exact R|]. split; [exact Cm|].
  pose proof (proj1 (vy_accepts_iff e t m x M) A) as Acc.
  apply (vy_requests_claim p); [exact Hx|exact P| |intros k; now apply (K p x)|intros y; now apply (U p x)].
  apply (vy_result_alike e t m fuel x r d M A R); congruence.
Qed.

Lemma vy_words_in : forall old, In old (vy_arithmetic ++ vy_logical ++ vy_bitwise ++ vy_comparison) -> ~ In old ["And"; "Or"] ->
  exists w, In (old, w) vy_words /\ assoc old python_operators = Some w.
Proof.
  intros old I N. cbn in I. decompose [or] I; try contradiction; subst; try (exfalso; apply N; cbn; tauto);
    (eexists; split; [|reflexivity]; cbn; tauto).
Qed.

Lemma vy_binop_token : forall x x' o o' old new w w' c, is_vy "BinOp" x \/ is_vy "Compare" x ->
  has_field x "op" o -> is_vy old o -> field_becomes "ast_type" (JStr new) o o' -> field_becomes "op" o' x x' ->
  assoc old python_operators = Some w -> assoc new python_operators = Some w' -> token_changes w w' (vy_emit c x) (vy_emit c x').
Proof.
  intros x x' o o' old new w w' c T O Ot Fo F W W'.
  assert (TT : exists t, (t = "BinOp" \/ t = "Compare") /\ get_str x "ast_type" = Some t /\ get_str x' "ast_type" = Some t).
  { rewrite (fb_str _ _ _ _ "ast_type" F) by (discriminate || reflexivity).
    destruct T as [T|T]; eexists; (split; [|split; apply get_str_Some; [reflexivity|exact T|reflexivity|exact T]]); tauto. }
  destruct TT as (t & Ht & T1 & T2). rewrite !vy_emit_unfold. unfold vy_printer_for. rewrite T1, T2.
  replace (assoc t vy_table) with (Some v_BinOp) by (destruct Ht as [->| ->]; reflexivity). cbn iota. unfold v_BinOp, v_symbol, sub.
  unfold has_field in O. rewrite O, (fb_new _ _ _ _ F), (proj2 (get_str_Some o "ast_type" _ eq_refl) Ot), W,
    (proj2 (get_str_Some o' "ast_type" _ eq_refl) (fb_new _ _ _ _ Fo)), W'. cbn [opt].
  rewrite (fb_old _ _ _ _ "left" F), (fb_old _ _ _ _ "right" F) by discriminate.
  exists (opt (oget x "left") (v_parens_maybe (vy_emit c)) ++ [Space]), (Space :: opt (oget x "right") (v_parens_maybe (vy_emit c))).
  rewrite <- !app_assoc. now split.
Qed.

Lemma vy_and_emit : forall o w ty c, is_vy ty o -> In (ty, w) [("And", "and"); ("Or", "or")] -> vy_emit c o = [Tok w].
Proof.
  intros o w ty c T I. rewrite vy_emit_unfold. unfold vy_printer_for. rewrite (proj2 (get_str_Some o "ast_type" _ eq_refl) T).
  assert (E : assoc ty vy_table = Some v_And) by (cbn in I; destruct I as [I|[I|[]]]; injection I as <- <-; reflexivity).
  rewrite E. unfold v_And. rewrite (proj2 (get_str_Some o "ast_type" _ eq_refl) T). cbn [opt].
  cbn in I; destruct I as [I|[I|[]]]; injection I as <- <-; reflexivity.
Qed.

Lemma vy_boolop_token : forall x x' o o' old new w w' c, is_vy "BoolOp" x ->
  has_field x "op" o -> is_vy old o -> field_becomes "ast_type" (JStr new) o o' -> field_becomes "op" o' x x' ->
  In (old, w) [("And", "and"); ("Or", "or")] -> In (new, w') [("And", "and"); ("Or", "or")] ->
  vy_emit c x = vy_emit c x' \/ token_changes w w' (vy_emit c x) (vy_emit c x').
Proof.
  intros x x' o o' old new w w' c T O Ot Fo F W W'.
  rewrite (vy_emit_unfold c x), (vy_emit_unfold c x'). unfold vy_printer_for. rewrite (fb_str _ _ _ _ "ast_type" F) by (discriminate || reflexivity).
  rewrite (proj2 (get_str_Some x "ast_type" _ eq_refl) T). change (assoc "BoolOp" vy_table) with (Some v_BoolOp). cbn iota.
  unfold v_BoolOp, arr_of, sub. rewrite (fb_old _ _ _ _ "values" F) by discriminate. 
  destruct (oget x "values") as [v|]; [|now left]. destruct (as_array v) as [l|]; [|now left]. cbn [opt].
  destruct l as [|a [|b l]]; [now left|now left|]. right.
  unfold has_field in O. rewrite O, (fb_new _ _ _ _ F). cbn [opt].
  rewrite (vy_and_emit o w old c Ot W), (vy_and_emit o' w' new c (fb_new _ _ _ _ Fo) W').
  exists (v_parens_maybe (vy_emit c) a ++ [Space]), (Space :: v_parens_maybe (vy_emit c) b). rewrite <- !app_assoc. now split.
Qed.

Lemma vy_operator_claim : forall e g class m ps idm fuel i ast r ast' s c,
  vy_class g = Some class -> vy_mutator_for e (Generic g) = Some m ->
  make_mutation ps idm m fuel i ast r = Ok (ast', s) -> vy_sorted ast ->
  never_under vy_inspected (vy_binary class) ast -> only_below no_vy_comment (vy_binary class) ast ->
  vy_emit c ast = vy_emit c ast' \/
  exists old new w w', In old class /\ In new class /\ new <> old /\ In (old, w) vy_words /\ In (new, w') vy_words /\
    token_changes w w' (vy_emit c ast) (vy_emit c ast').
Proof.
  intros e g class m ps idm fuel i ast r ast' s c G M H So K U.
  assert (Acc : forall x, vy_accepts e (Generic g) x -> vy_binary class x).
  { intros x X. destruct g; try discriminate G; injection G as <-; try exact X; destruct X. }
  destruct (vy_step e (Generic g) m ps idm fuel i ast r ast' s c M) as [->|(p & x & d & Hx & A & R & Cm & Ch)]; [destruct g; discriminate|destruct g; discriminate|exact H| | |now left|].
  - intros p x k Hx X. apply (K p x k Hx), Acc, X.
  - intros p x y Hx X. apply (U p x y Hx), Acc, X.
  - destruct (vy_binop_claim _ _ _ _ _ _ _ _ G M A R) as (o & o' & old & new & T & O & Ot & I & I' & N & Fo & F).
    pose proof (So p x o old Hx O (proj2 (get_str_Some o "ast_type" _ eq_refl) Ot)) as B.
    destruct (String.eqb_spec "BoolOp" (match get_str x "ast_type" with Some t => t | None => "" end)) as [Eb|Nb].
    + assert (Tx : get_str x "ast_type" = Some "BoolOp") by (destruct (get_str x "ast_type"); [congruence|discriminate]).
      pose proof (proj1 B Tx) as Io.
      assert (W : exists w w', In (old, w) [("And", "and"); ("Or", "or")] /\ In (new, w') [("And", "and"); ("Or", "or")]).
      { assert (In new ["And"; "Or"]).
        { destruct g; try discriminate G; injection G as <-; try exact I'; cbn in I, Io; intuition (subst; discriminate). }
        cbn in Io, H0. destruct Io as [<-|[<-|[]]], H0 as [<-|[<-|[]]];
          [exists "and", "and"|exists "and", "or"|exists "or", "and"|exists "or", "or"]; cbn; tauto. }
      destruct W as (w & w' & W & W').
      destruct (one_token_changes _ _ _ _ _ _ w w' (fun c => vy_boolop_token _ _ _ _ _ _ w w' c (proj1 (get_str_Some x "ast_type" _ eq_refl) Tx) O Ot Fo F W W') Ch) as [E|E]; [now left|right].
      exists old, new, w, w'. repeat (split; [assumption|]).
      split; [|split; [|exact E]]; cbn in W, W' |- *; tauto.
    + assert (Nx : ~ is_vy "BoolOp" x).
      { intros X. apply (get_str_Some x "ast_type" _ eq_refl) in X. rewrite X in Nb. now apply Nb. }
      assert (Nl : forall y, In y class -> ~ In y ["And"; "Or"]).
      { assert (Io : ~ In old ["And"; "Or"]) by (intros X; apply Nx; apply (get_str_Some x "ast_type" _ eq_refl); tauto).
        intros y Y X. destruct g; try discriminate G; injection G as <-; cbn in I, Y, X, Io; intuition (subst; try discriminate; auto). }
      assert (Al : forall y, In y class -> In y (vy_arithmetic ++ vy_logical ++ vy_bitwise ++ vy_comparison)).
      { intros y Y. destruct g; try discriminate G; injection G as <-; first [now destruct Y|rewrite !in_app_iff; tauto]. }
      destruct (vy_words_in old (Al _ I) (Nl _ I)) as (w & W & E1). destruct (vy_words_in new (Al _ I') (Nl _ I')) as (w' & W' & E2).
      assert (T2 : is_vy "BinOp" x \/ is_vy "Compare" x) by tauto.
      destruct (one_token_changes _ _ _ _ _ _ w w' (fun c => or_intror (vy_binop_token _ _ _ _ _ _ w w' c T2 O Ot Fo F E1 E2)) Ch) as [E|E]; [now left|right].
      exists old, new, w, w'. auto 10.
Qed.
