(** The Vyper printer writes the text of the program (expressions). *)
From Coq Require Import String Ascii List NArith ZArith Bool Lia DecimalString.
From Verif Require Import Base Json JsonFacts VyMutators Printer VyPrinter SpecPrinter SpecLiteral SpecVyText
  TextFacts LayoutFacts EmitFacts VyEmit PrintFacts LitFacts IdealFacts.
Import ListNotations.
Open Scope string_scope.
Open Scope list_scope.

(** ** Induction on expressions *)

Lemma vexp_ind' : forall P : vexp -> Prop,
  (forall x, P (VName x)) -> (forall z, P (VInt z)) -> (forall h s, P (VVerbatim h s)) -> (forall s, P (VStr s)) ->
  (forall bs, P (VBytes bs)) -> (forall b, P (VConst b)) ->
  (forall op a b, P a -> P b -> P (VBin op a b)) -> (forall op a b, P a -> P b -> P (VCmp op a b)) ->
  (forall both a b more, P a -> P b -> Forall P more -> P (VLogic both a b more)) ->
  (forall a, P a -> P (VNot a)) -> (forall a, P a -> P (VInvert a)) -> (forall a, P a -> P (VNeg a)) ->
  (forall a x, P a -> P (VAttr a x)) ->
  (forall a i more, P a -> P i -> Forall P more -> P (VSub a i more)) ->
  (forall f args kws, P f -> Forall P args -> Forall (fun kv => P (snd kv)) kws -> P (VCall f args kws)) ->
  (forall l, Forall P l -> P (VList l)) -> (forall l, Forall P l -> P (VTuple l)) ->
  (forall l, Forall (fun kv => P (fst kv) /\ P (snd kv)) l -> P (VDict l)) ->
  forall e, P e.
Proof.
  intros P H1 H2 H3 H4 H5 H6 H7 H8 H9 H10 H11 H12 H13 H14 H15 H16 H17 H18.
  fix IH 1. intros e. destruct e.
  - apply H1. - apply H2. - apply H3. - apply H4. - apply H5. - apply H6.
  - apply H7; apply IH. - apply H8; apply IH.
  - apply H9; [apply IH|apply IH|]. revert more. fix G 1. intros [|x l]; constructor; [apply IH|apply G].
  - apply H10, IH. - apply H11, IH. - apply H12, IH. - apply H13, IH.
  - apply H14; [apply IH|apply IH|]. revert more. fix G 1. intros [|x l]; constructor; [apply IH|apply G].
  - apply H15; [apply IH| |].
    + revert args. fix G 1. intros [|x l]; constructor; [apply IH|apply G].
    + revert kws. fix G 1. intros [|x l]; constructor; [apply IH|apply G].
  - apply H16. revert l. fix G 1. intros [|x l]; constructor; [apply IH|apply G].
  - apply H17. revert l. fix G 1. intros [|x l]; constructor; [apply IH|apply G].
  - apply H18. revert l. fix G 1. intros [|x l]; constructor; [split; apply IH|apply G].
Qed.

(** ** Requests that write a text *)

(** [h]: how many levels of indentation they open. *)
Definition says (h : nat) (l : list cmd) (t : N -> N -> string) : Prop :=
  plain l /\ balanced l /\ Forall one_line (tokens l) /\ (forall ind, climb ind l <= ind + N.of_nat h)%N /\
  forall tab ind, ideal tab ind l = t tab ind.

Lemma climb_scan : forall a b k k' base, scan k a = Some k' ->
  climb (base + N.of_nat k) (a ++ b) = N.max (climb (base + N.of_nat k) a) (climb (base + N.of_nat k') b).
Proof.
  induction a as [|c a IH]; intros b k k' base S.
  - injection S as <-. cbn [app climb]. pose proof (climb_ge b (base + N.of_nat k)). lia.
  - destruct c; cbn [app climb scan] in *; try (rewrite (IH b k k' base S); lia).
    + replace (base + N.of_nat k + 1)%N with (base + N.of_nat (Datatypes.S k))%N by lia. rewrite (IH b _ k' base S). lia.
    + destruct k as [|k]; [discriminate|].
      replace (base + N.of_nat (Datatypes.S k) - 1)%N with (base + N.of_nat k)%N by lia. rewrite (IH b _ k' base S). lia.
Qed.

Lemma climb_app : forall a b ind, balanced a -> climb ind (a ++ b) = N.max (climb ind a) (climb ind b).
Proof.
  intros a b ind B. pose proof (climb_scan a b 0 0 ind (B 0)) as H. cbn in H. now rewrite !N.add_0_r in H.
Qed.

Lemma tokens_app : forall a b, tokens (a ++ b) = tokens a ++ tokens b.
Proof. intros. unfold tokens. apply flat_map_app. Qed.

Lemma says_ext : forall h l t t', says h l t -> (forall tab ind, t tab ind = t' tab ind) -> says h l t'.
Proof. intros h l t t' (P & B & O & C & E) H. repeat (split; [assumption|]). intros. now rewrite E. Qed.

Lemma says_more : forall h k l t, h <= k -> says h l t -> says k l t.
Proof.
  intros h k l t L (P & B & O & C & E). split; [exact P|]. split; [exact B|]. split; [exact O|]. split; [|exact E].
  intros ind. specialize (C ind). lia.
Qed.

Lemma says_app : forall h a b s t, says h a s -> says h b t ->
  says h (a ++ b) (fun tab ind => String.append (s tab ind) (t tab ind)).
Proof.
  intros h a b s t (P1 & B1 & O1 & C1 & E1) (P2 & B2 & O2 & C2 & E2). split; [now apply Forall_app|]. split; [now apply bal_app|].
  split; [rewrite tokens_app; now apply Forall_app|]. split; [intros ind; rewrite climb_app by exact B1; specialize (C1 ind); specialize (C2 ind); lia|].
  intros tab ind. now rewrite ideal_app, E1, E2.
Qed.

Lemma says_nil : forall h, says h [] (fun _ _ => "").
Proof. intros h. split; [constructor|]. split; [apply bal_nil|]. split; [constructor|]. split; [intros; cbn; lia|reflexivity]. Qed.

Lemma says_tok : forall h s, one_line s -> says h [Tok s] (fun _ _ => s).
Proof.
  intros h s L. split; [repeat constructor|]. split; [intros k; reflexivity|]. split; [repeat constructor; exact L|].
  split; [intros; cbn; lia|]. intros. cbn. apply app_nil_r_s.
Qed.

Lemma says_cons_tok : forall h s l t, one_line s -> says h l t -> says h (Tok s :: l) (fun tab ind => String.append s (t tab ind)).
Proof. intros h s l t L H. exact (says_ext _ _ _ _ (says_app h [Tok s] l _ _ (says_tok h s L) H) (fun _ _ => eq_refl)). Qed.

Lemma says_cons_space : forall h l t, says h l t -> says h (Space :: l) (fun tab ind => String " " (t tab ind)).
Proof.
  intros h l t (P & B & O & C & E). split; [constructor; [exact I|exact P]|]. split; [intros k; apply (B k)|].
  split; [exact O|]. split; [intros ind; specialize (C ind); cbn; lia|]. intros. cbn. now rewrite E.
Qed.

Lemma says_cons_newline : forall h l t, says h l t -> says h (Newline :: l) (fun tab ind => String.append newline (t tab ind)).
Proof.
  intros h l t (P & B & O & C & E). split; [constructor; [exact I|exact P]|]. split; [intros k; apply (B k)|].
  split; [exact O|]. split; [intros ind; specialize (C ind); cbn; lia|]. intros. cbn. now rewrite E.
Qed.

Lemma says_cons_indent : forall h l t, says h l t -> says h (Indent :: l) (fun tab ind => String.append (margin tab ind) (t tab ind)).
Proof.
  intros h l t (P & B & O & C & E). split; [constructor; [exact I|exact P]|]. split; [intros k; apply (B k)|].
  split; [exact O|]. split; [intros ind; specialize (C ind); cbn; lia|]. intros. cbn. now rewrite E.
Qed.

(** One level deeper. *)
Lemma says_inside : forall h l t, says h l t -> says (S h) (Inc :: l ++ [Dec]) (fun tab ind => t tab (ind + 1)%N).
Proof.
  intros h l t (P & B & O & C & E). split; [|split; [|split; [|split]]].
  - constructor; [exact I|]. apply Forall_app. split; [exact P|repeat constructor].
  - intros k; cbn; rewrite scan_app, B; reflexivity.
  - cbn [tokens flat_map app]. fold (tokens (l ++ [Dec])). rewrite tokens_app. apply Forall_app. split; [exact O|constructor].
  - intros ind. cbn [climb]. rewrite climb_app by exact B. specialize (C (ind + 1)%N). cbn [climb]. lia.
  - intros tab ind. cbn [ideal]. rewrite ideal_app by exact B. cbn. now rewrite app_nil_r_s, E.
Qed.

Arguments says_ext [h l t t'].
Arguments says_app [h a b s t].
Arguments says_nil {h}.
Arguments says_tok [h] s.
Arguments says_cons_tok [h] s [l t].
Arguments says_cons_space [h l t].
Arguments says_cons_newline [h l t].
Arguments says_cons_indent [h l t].
Arguments says_inside [h l t].

Ltac tk := apply says_cons_tok; [first [reflexivity|assumption]|].
Ltac sp := apply says_cons_space.
Ltac nl := apply says_cons_newline.

Lemma says_comma : forall h, says h [Tok ","; Space] (fun _ _ => ", ").
Proof. intros h. exact (says_cons_tok "," eq_refl (says_cons_space says_nil)). Qed.

Lemma says_each : forall A h f g (T : A -> N -> N -> string) sep l ns,
  Forall2 (fun e n => says h (f n) (T e)) l ns -> (forall n, says h (g n) (fun _ _ => sep)) ->
  says h (each f g ns) (fun tab ind => sjoin sep (map (fun e => T e tab ind) l)).
Proof.
  intros A h f g T sep l ns F G. induction F as [|e n l ns H F IH]; [exact says_nil|].
  cbn [each]. destruct F as [|e2 n2 l ns H2 F].
  - eapply says_ext; [exact (says_app H (says_app says_nil says_nil))|].
    intros. cbn. apply app_nil_r_s.
  - eapply says_ext; [exact (says_app H (says_app (G n2) IH))|].
    intros. reflexivity.
Qed.

Lemma says_commas : forall A h f (T : A -> N -> N -> string) l ns,
  Forall2 (fun e n => says h (f n) (T e)) l ns ->
  says h (commas f ns) (fun tab ind => sjoin ", " (map (fun e => T e tab ind) l)).
Proof.
  intros A h f T l ns F. apply says_each; [exact F|]. intros n. exact (says_comma h).
Qed.

Lemma says_flat_map : forall A h (f : json -> list cmd) (T : A -> N -> N -> string) l ns,
  Forall2 (fun e n => says h (f n) (T e)) l ns ->
  says h (flat_map f ns) (fun tab ind => cat (map (fun e => T e tab ind) l)).
Proof.
  intros A h f T l ns F. induction F as [|e n l ns H F IH]; [exact says_nil|].
  exact (says_app H IH).
Qed.

(** ** Fields *)

Lemma elements_Forall2 : forall R es ns, elements R es ns -> Forall2 R es ns.
Proof.
  intros R es. induction es as [|e es IH]; intros [|n ns] H; try contradiction; constructor; [apply H|apply IH, H].
Qed.

Lemma Forall2_same_length : forall A B (R : A -> B -> Prop) l l', Forall2 R l l' -> length l = length l'.
Proof. intros A B R l l' F. induction F; cbn; [reflexivity|now f_equal]. Qed.

Lemma vy_at : forall c n ty p, is_a n ty -> assoc ty vy_table = Some p -> vy_emit c n = p c vy_emit n.
Proof.
  intros c n ty p H E. rewrite vy_emit_unfold. unfold vy_printer_for.
  rewrite (get_str_plain n "ast_type" _ eq_refl H), E. reflexivity.
Qed.

Lemma arr_of_fld : forall n k l, fld n k (JArr l) -> arr_of n k = Some l.
Proof. intros n k l H. unfold arr_of. now rewrite H. Qed.

Lemma sub_fld : forall f n k v, fld n k v -> sub f n k = f v.
Proof. intros f n k v H. unfold sub. now rewrite H. Qed.

Lemma symbol_binary : forall n op, (exists ty, In (ty, op) binary_symbols /\ has_op n ty) -> shown op -> v_symbol n = Some op.
Proof.
  intros n op (ty & I & o & F & A) S. unfold v_symbol. rewrite F, (get_str_plain o "ast_type" _ eq_refl A).
  cbn in I.
  repeat (destruct I as [I|I]; [injection I as <- <-; first [reflexivity|exfalso; apply S; cbn; tauto]|]). destruct I.
Qed.

Lemma symbol_compare : forall n op, (exists ty, In (ty, op) compare_symbols /\ has_op n ty) -> v_symbol n = Some op.
Proof.
  intros n op (ty & I & o & F & A). unfold v_symbol. rewrite F, (get_str_plain o "ast_type" _ eq_refl A).
  cbn in I. repeat (destruct I as [I|I]; [injection I as <- <-; reflexivity|]). destruct I.
Qed.

Definition type_of (e : vexp) : string :=
  match e with
  | VName _ => "Name" | VInt _ => "Int" | VVerbatim h _ => if h then "Hex" else "Decimal" | VStr _ => "Str"
  | VBytes _ => "Bytes" | VConst _ => "NameConstant" | VBin _ _ _ => "BinOp" | VCmp _ _ _ => "Compare"
  | VLogic _ _ _ _ => "BoolOp" | VNot _ | VInvert _ | VNeg _ => "UnaryOp" | VAttr _ _ => "Attribute"
  | VSub _ _ _ => "Subscript" | VCall _ _ _ => "Call" | VList _ => "List" | VTuple _ => "Tuple" | VDict _ => "Dict"
  end.

Lemma vnode_type : forall e n, vnode e n -> is_a n (type_of e).
Proof. intros e n H. destruct e; cbn in H; try (destruct H as (H & _); exact H). Qed.

Definition compound (e : vexp) : bool := Nat.eqb (binding e) 1.

Lemma says_operand : forall h c e n t k, vnode e n -> (2 <= k)%nat -> sits k e -> says h (vy_emit c n) t ->
  says h (v_parens_maybe (vy_emit c) n) (fun tab ind => paren (Nat.ltb (binding e) k) (t tab ind)).
Proof.
  intros h c e n t k H L Z S. unfold v_parens_maybe.
  rewrite (get_str_plain n "ast_type" _ eq_refl (vnode_type _ _ H)). cbn [opt].
  assert (E : smem (type_of e) ["BinOp"; "Compare"; "BoolOp"] = Nat.ltb (binding e) k).
  { transitivity (Nat.eqb (binding e) 1).
    - destruct e; try reflexivity; [cbn; destruct (z <? 0)%Z; reflexivity|destruct hex; reflexivity].
    - symmetry. destruct Z as [->|Z].
      + apply Nat.ltb_lt. lia.
      + replace (Nat.ltb (binding e) k) with false by (symmetry; apply Nat.ltb_ge; exact Z).
        symmetry. apply Nat.eqb_neq. lia. }
  rewrite E. destruct (Nat.ltb (binding e) k); cbn [when paren].
  - eapply says_ext; [exact (says_cons_tok "(" eq_refl (says_app S (says_tok ")" eq_refl)))|]. reflexivity.
  - eapply says_ext; [exact (says_app says_nil (says_app S says_nil))|].
    intros. cbn. apply app_nil_r_s.
Qed.

Lemma sits_not : forall e, sits 2 e.
Proof. intros e. unfold sits. destruct e; cbn; try lia; [destruct (z <? 0)%Z; lia|destruct hex; lia]. Qed.

Lemma base_text : forall e t, (5 <= binding e)%nat -> paren (Nat.ltb (binding e) 5) t = t.
Proof. intros e t H. replace (Nat.ltb (binding e) 5) with false by (symmetry; apply Nat.ltb_ge; exact H). reflexivity. Qed.

(** ** Expressions *)

Ltac text_eq := intros; repeat (progress (cbn [cat fold_right vtext String.append]; rewrite ?app_nil_r_s, ?app_assoc_s)); try reflexivity.

Lemma bytes_text : forall bs, byte_pairs (hex_encode bs) =
  Some (cat (map (fun a => String.append "\x" (hex_encode (String a ""))) (list_ascii_of_string bs))).
Proof.
  induction bs as [|a bs IH]; [reflexivity|].
  pose proof (N_ascii_bounded a) as B.
  assert (D : (N_of_ascii a / 16 < 16)%N) by (apply N.div_lt_upper_bound; lia).
  cbn [hex_encode byte_pairs]. rewrite (hex_digit_ascii _ D).
  assert (C : match hex_encode bs with String d _ => is_cont_byte d | _ => false end = false).
  { destruct bs as [|b bs]; [reflexivity|]. cbn [hex_encode]. apply hex_digit_ascii.
    apply N.div_lt_upper_bound; [lia|]. apply N_ascii_bounded. }
  rewrite C, IH. reflexivity.
Qed.

Lemma as_i64_jint : forall z, in_i64 z = true -> as_i64 (jint z) = Some z.
Proof.
  intros z H. unfold in_i64 in H. apply andb_prop in H. destruct H as (H1 & H2).
  apply Z.leb_le in H1. apply Z.ltb_lt in H2.
  unfold jint, as_i64. destruct (z <? 0)%Z eqn:E; [reflexivity|].
  apply Z.ltb_ge in E. rewrite Z2N.id by lia.
  replace (Z.to_N z <? 9223372036854775808)%N with true by (symmetry; apply N.ltb_lt; lia). reflexivity.
Qed.

Definition speaks (e : vexp) : Prop :=
  forall h c n, vnode e n -> easy h e -> says h (vy_emit c n) (fun tab ind => vtext tab ind e).

Lemma easy_all : forall h l, (fix all l := match l with [] => True | e :: l => easy h e /\ all l end) l -> Forall (easy h) l.
Proof. intros h. induction l as [|e l IH]; [constructor|]. intros (H & G). constructor; [exact H|apply IH, G]. Qed.

Lemma speaks_elements : forall h c es ns, Forall speaks es -> Forall (easy h) es -> elements vnode es ns ->
  Forall2 (fun e n => says h (vy_emit c n) (fun tab ind => vtext tab ind e)) es ns.
Proof.
  intros h c es ns F Z H. apply elements_Forall2 in H. induction H; inversion F; inversion Z; subst; constructor; auto.
Qed.

Lemma sjoin_app : forall sep l l', l <> [] -> l' <> [] ->
  sjoin sep (l ++ l') = String.append (sjoin sep l) (String.append sep (sjoin sep l')).
Proof.
  intros sep l l' H H'. induction l as [|x l IH]; [contradiction|].
  destruct l as [|y l].
  - cbn. destruct l' as [|z l']; [contradiction|reflexivity].
  - cbn [app]. change (sjoin sep (x :: y :: l ++ l')) with (String.append x (String.append sep (sjoin sep ((y :: l) ++ l')))).
    rewrite IH by discriminate.
    change (sjoin sep (x :: y :: l)) with (String.append x (String.append sep (sjoin sep (y :: l)))).
    now rewrite !app_assoc_s.
Qed.

Lemma left_side_2 : forall op, (2 <= left_side op)%nat.
Proof. intros op. unfold left_side. destruct (op =?s "**"); lia. Qed.

Lemma speaks_binary : forall h c n op (k : nat) a b, (2 <= k)%nat -> v_symbol n = Some op -> sits k a -> sits 3 b ->
  speaks a -> speaks b -> one_line op -> easy h a -> easy h b ->
  (exists v, fld n "left" v /\ vnode a v) -> (exists v, fld n "right" v /\ vnode b v) ->
  says h (v_BinOp c vy_emit n) (fun tab ind => cat [paren (Nat.ltb (binding a) k) (vtext tab ind a); " "; op; " ";
                                                  paren (Nat.ltb (binding b) 3) (vtext tab ind b)]).
Proof.
  intros h c n op k a b L O Ka Kb Sa Sb Op Ea Eb (x & Fx & Nx) (y & Fy & Ny). unfold v_BinOp.
  rewrite O, (sub_fld _ _ _ _ Fx), (sub_fld _ _ _ _ Fy). cbn [opt].
  eapply says_ext.
  { apply says_app; [apply (says_operand h c a x _ k Nx L Ka (Sa h c x Nx Ea))|].
    apply says_app; [exact (says_cons_space (says_cons_tok op Op (says_cons_space says_nil)))|].
    apply (says_operand h c b y _ 3 Ny (le_S _ _ (le_n 2)) Kb (Sb h c y Ny Eb)). }
  text_eq.
Qed.

Lemma speaks_keyword : forall h c x e n, speaks e -> one_line x -> easy h e ->
  is_a n "keyword" -> fld n "arg" (JStr x) -> (exists v, fld n "value" v /\ vnode e v) ->
  says h (vy_emit c n) (fun tab ind => cat [x; "="; vtext tab ind e]).
Proof.
  intros h c x e n S O Z A F (v & Fv & Nv).
  rewrite (vy_at c n _ _ A eq_refl). unfold v_keyword. rewrite (get_str_plain n "arg" _ eq_refl F), (sub_fld _ _ _ _ Fv). cbn [opt].
  eapply says_ext; [exact (says_cons_tok _ O (says_cons_tok "=" eq_refl (S h c v Nv Z)))|]. text_eq.
Qed.

Definition pair_text (tab ind : N) (kv : vexp * vexp) : string :=
  cat [margin tab ind; vtext tab ind (fst kv); ": "; vtext tab ind (snd kv)].

Lemma says_pairs : forall h f l ks vs,
  Forall2 (fun (kv : vexp * vexp) k => says h (f k) (fun tab ind => vtext tab ind (fst kv))) l ks ->
  Forall2 (fun (kv : vexp * vexp) v => says h (f v) (fun tab ind => vtext tab ind (snd kv))) l vs ->
  says h (v_pairs f ks vs) (fun tab ind => sjoin (String.append "," newline) (map (pair_text tab ind) l)).
Proof.
  intros h f l ks vs F. revert vs. induction F as [|kv k l ks H F IH]; intros vs G; inversion G as [|? v ? vs' H' G']; subst.
  - exact says_nil.
  - cbn [v_pairs]. specialize (IH _ G').
    pose proof (@says_cons_tok h ":" _ _ eq_refl (says_cons_space says_nil)) as C.
    destruct F as [|kv2 k2 l ks H2 F].
    + inversion G'; subst. cbn [v_pairs not_empty when].
      eapply says_ext; [exact (says_cons_indent (says_app H (says_app C (says_app H' (says_app says_nil says_nil)))))|].
      intros. cbn [map sjoin String.concat]. unfold pair_text. text_eq.
    + cbn [not_empty when].
      pose proof (@says_cons_tok h "," _ _ eq_refl (says_cons_newline says_nil)) as D.
      eapply says_ext; [exact (says_cons_indent (says_app H (says_app C (says_app H' (says_app D IH)))))|].
      intros. change (map (pair_text tab ind) (kv :: kv2 :: l)) with (pair_text tab ind kv :: map (pair_text tab ind) (kv2 :: l)).
      change (sjoin (String.append "," newline) (pair_text tab ind kv :: map (pair_text tab ind) (kv2 :: l)))
        with (String.append (pair_text tab ind kv) (String.append (String.append "," newline) (sjoin (String.append "," newline) (map (pair_text tab ind) (kv2 :: l))))).
      cbv beta. generalize (sjoin (String.append "," newline) (map (pair_text tab ind) (kv2 :: l))). intros z. unfold pair_text. text_eq.
Qed.

Lemma digits_line : forall u, one_line (NilEmpty.string_of_uint u).
Proof. induction u; cbn; try reflexivity; exact IHu. Qed.

Lemma show_N_line : forall n, one_line (show_N n).
Proof. intros n. unfold show_N, NilZero.string_of_uint. destruct (N.to_uint n) eqn:E; [reflexivity|..]; apply digits_line. Qed.

Lemma show_Z_line : forall z, one_line (show_Z z).
Proof. intros [|p|p]; [exact (show_N_line 0)|exact (show_N_line (Npos p))|]. exact (one_line_append "-" _ eq_refl (show_N_line (Npos p))). Qed.

Lemma quoted_line : forall s, one_line s -> one_line (quoted s).
Proof. intros s H. exact (one_line_append """" _ eq_refl (one_line_append s """" H eq_refl)). Qed.

Lemma hex_digit_line : forall n, (n < 16)%N -> one_line (String (hex_digit n) "").
Proof.
  intros n H. assert (D : In n (map N.of_nat (seq 0 16))).
  { apply in_map_iff. exists (N.to_nat n). split; [lia|]. apply in_seq. lia. }
  cbn in D. repeat (destruct D as [<-|D]; [reflexivity|]). destruct D.
Qed.

Lemma hex_line : forall bs, one_line (hex_encode bs).
Proof.
  induction bs as [|a bs IH]; [reflexivity|]. cbn [hex_encode].
  pose proof (N_ascii_bounded a).
  apply (one_line_append (String _ "")); [apply hex_digit_line; apply N.div_lt_upper_bound; lia|].
  apply (one_line_append (String _ "")); [apply hex_digit_line; apply N.mod_lt; discriminate|exact IH].
Qed.

Lemma bytes_line : forall bs, one_line (String.append "b'" (String.append
  (cat (map (fun a => String.append "\x" (hex_encode (String a ""))) (list_ascii_of_string bs))) "'")).
Proof.
  intros bs. apply one_line_append; [reflexivity|]. apply one_line_append; [|reflexivity].
  induction (list_ascii_of_string bs) as [|a l IH]; [reflexivity|].
  cbn [map cat fold_right]. apply one_line_append; [|exact IH].
  apply one_line_append; [reflexivity|apply hex_line].
Qed.

Lemma binary_line : forall n op, (exists ty, In (ty, op) binary_symbols /\ has_op n ty) -> one_line op.
Proof.
  intros n op (ty & I & _). cbn in I. repeat (destruct I as [I|I]; [injection I as <- <-; reflexivity|]). destruct I.
Qed.

Lemma compare_line : forall n op, (exists ty, In (ty, op) compare_symbols /\ has_op n ty) -> one_line op.
Proof.
  intros n op (ty & I & _). cbn in I. repeat (destruct I as [I|I]; [injection I as <- <-; reflexivity|]). destruct I.
Qed.

Lemma all_speak : forall e, speaks e.
Proof.
  induction e as [x|z|hx s|s|bs|b|op a b IHa IHb|op a b IHa IHb|both a b more IHa IHb IHm|a IHa|a IHa|a IHa|a x IHa
                 |a i more IHa IHi IHm|f args kws IHf IHargs IHkws|l IHl|l IHl|l IHl] using vexp_ind';
    intros h c n H Z; cbn [vnode] in H.
  - destruct H as (A & F). rewrite (vy_at c n _ _ A eq_refl). unfold v_Name.
    rewrite (get_str_plain n "id" _ eq_refl F). exact (says_tok x Z).
  - destruct H as (A & F & B). rewrite (vy_at c n _ _ A eq_refl). unfold v_Int, get_int.
    rewrite (kget_plain n "value" eq_refl), F, (as_i64_jint z B). exact (says_tok (show_Z z) (show_Z_line z)).
  - destruct H as (A & F). destruct hx; rewrite (vy_at c n _ _ A eq_refl); unfold v_Value;
      rewrite (get_str_plain n "value" _ eq_refl F); exact (says_tok s Z).
  - destruct H as (A & F). rewrite (vy_at c n _ _ A eq_refl). unfold v_Str.
    rewrite (get_str_plain n "value" _ eq_refl F). cbn [opt].
    eapply says_ext; [exact (says_tok (quoted s) (quoted_line s Z))|]. text_eq.
  - destruct H as (A & F). rewrite (vy_at c n _ _ A eq_refl). unfold v_Bytes.
    rewrite (get_str_plain n "value" _ eq_refl F). cbn [opt].
    change (str_drop 2 (String.append "0x" (hex_encode bs))) with (str_drop 0 (hex_encode bs)).
    replace (str_drop 0 (hex_encode bs)) with (hex_encode bs) by (destruct (hex_encode bs); reflexivity).
    rewrite bytes_text. eapply says_ext; [apply says_tok, bytes_line|]. text_eq.
  - destruct H as (A & F). rewrite (vy_at c n _ _ A eq_refl). unfold v_NameConstant. rewrite F.
    destruct b as [[|]|]; cbn [opt]; apply says_tok; reflexivity.
  - destruct H as (A & O & X & Y). destruct Z as (Sh & Ka & Kb & Za & Zb). rewrite (vy_at c n _ _ A eq_refl).
    exact (speaks_binary h c n op (left_side op) a b (left_side_2 op) (symbol_binary n op O Sh) Ka Kb IHa IHb (binary_line n op O) Za Zb X Y).
  - destruct H as (A & O & X & Y). destruct Z as (Ka & Kb & Za & Zb). rewrite (vy_at c n _ _ A eq_refl).
    exact (speaks_binary h c n op 3 a b (le_S _ _ (le_n 2)) (symbol_compare n op O) Ka Kb IHa IHb (compare_line n op O) Za Zb X Y).
  - destruct Z as (-> & Za & Zb). destruct H as (A & (o & Fo & Ao) & x & y & l & F & Nx & Ny & El).
    destruct l; [|contradiction]. rewrite (vy_at c n _ _ A eq_refl). unfold v_BoolOp.
    rewrite (arr_of_fld _ _ _ F), (sub_fld _ _ _ _ Fo). cbn [opt].
    assert (S : says h (vy_emit c o) (fun _ _ => if both then "and" else "or")).
    { destruct both; rewrite (vy_at c o _ _ Ao eq_refl); unfold v_And; rewrite (get_str_plain o "ast_type" _ eq_refl Ao); apply says_tok; reflexivity. }
    eapply says_ext.
    { apply says_app; [apply (says_operand h c a x _ 2 Nx (le_n 2) (sits_not a) (IHa h c x Nx Za))|].
      apply says_app; [exact (says_cons_space says_nil)|].
      apply says_app; [exact S|].
      apply says_app; [exact (says_cons_space says_nil)|].
      apply (says_operand h c b y _ 2 Ny (le_n 2) (sits_not b) (IHb h c y Ny Zb)). }
    destruct both; text_eq.
  - destruct H as (A & (o & Fo & Ao) & (x & Fx & Nx)). rewrite (vy_at c n _ _ A eq_refl). unfold v_UnaryOp.
    assert (U : v_unary_op n = Some _) by (unfold v_unary_op; rewrite Fo; exact (get_str_plain o "ast_type" _ eq_refl Ao)).
    rewrite Fx. cbn [opt]. rewrite !U. cbn [opt String.eqb Ascii.eqb eqb when].
    eapply says_ext; [exact (says_cons_tok "not" eq_refl (says_cons_space (says_operand h c a x _ 2 Nx (le_n 2) (sits_not a) (IHa h c x Nx Z))))|]. text_eq.
  - destruct H as (A & (o & Fo & Ao) & (x & Fx & Nx)). destruct Z as (Ka & Za). rewrite (vy_at c n _ _ A eq_refl). unfold v_UnaryOp.
    assert (U : v_unary_op n = Some _) by (unfold v_unary_op; rewrite Fo; exact (get_str_plain o "ast_type" _ eq_refl Ao)).
    rewrite Fx. cbn [opt]. rewrite !U. cbn [opt String.eqb Ascii.eqb eqb when app].
    eapply says_ext; [exact (says_cons_tok "~" eq_refl (says_operand h c a x _ 3 Nx (le_S _ _ (le_n 2)) Ka (IHa h c x Nx Za)))|]. text_eq.
  - destruct Z.
  - destruct H as (A & (v & Fv & Nv) & F). destruct Z as (Ka & Za & Zx). rewrite (vy_at c n _ _ A eq_refl). unfold v_Attribute.
    rewrite (sub_fld _ _ _ _ Fv), (get_str_plain n "attr" _ eq_refl F). cbn [opt].
    eapply says_ext; [exact (says_app (IHa h c v Nv Za) (says_cons_tok "." eq_refl (says_tok x Zx)))|].
    intros. cbn [vtext]. rewrite (base_text a _ Ka). text_eq.
  - destruct H as (A & (v & Fv & Nv) & s & w & Fs & As & Fw & M). destruct Z as (Ka & Za & Zi & Zm). apply easy_all in Zm.
    rewrite (vy_at c n _ _ A eq_refl). unfold v_Subscript.
    rewrite (sub_fld _ _ _ _ Fv), (sub_fld _ _ _ _ Fs).
    assert (S : says h (vy_emit (set_parens c false) w) (fun tab ind => sjoin ", " (map (fun e => vtext tab ind e) (i :: more)))).
    { destruct more as [|m more].
      - eapply says_ext; [apply (IHi h _ w M Zi)|reflexivity].
      - destruct M as (x & l & Aw & Fl & Nx & El). rewrite (vy_at _ w _ _ Aw eq_refl). unfold v_Tuple, v_array.
        rewrite (arr_of_fld _ _ _ Fl). cbn [opt set_parens vc_tuple_parens when].
        eapply says_ext.
        { apply says_app; [exact says_nil|]. apply says_app; [|exact says_nil].
          apply (says_commas _ _ _ (fun e tab ind => vtext tab ind e) (i :: m :: more)). constructor; [apply (IHi h _ x Nx Zi)|].
          apply speaks_elements; [exact IHm|exact Zm|exact El]. }
        text_eq. }
    assert (S2 : says h (vy_emit c s) (fun tab ind => String.append "[" (String.append (sjoin ", " (map (fun e => vtext tab ind e) (i :: more))) "]"))).
    { rewrite (vy_at c s _ _ As eq_refl). unfold v_Index, v_simple_value. rewrite (sub_fld _ _ _ _ Fw).
      exact (says_cons_tok "[" eq_refl (says_app S (says_tok "]" eq_refl))). }
    eapply says_ext; [exact (says_app (IHa h c v Nv Za) S2)|].
    intros. cbn [vtext]. rewrite (base_text a _ Ka). text_eq.
  - destruct H as (A & (v & Fv & Nv) & (l & Fl & El) & ks & Fk & Ek). destruct Z as (Kf & Zf & NE & Zargs & Zkws). apply easy_all in Zargs.
    rewrite (vy_at c n _ _ A eq_refl). unfold v_Call, v_array.
    rewrite (sub_fld _ _ _ _ Fv), (arr_of_fld _ _ _ Fl), (arr_of_fld _ _ _ Fk). cbn [opt].
    pose proof (says_commas _ _ _ _ _ _ (speaks_elements h c args l IHargs Zargs El)) as S1.
    assert (K : Forall2 (fun (kv : string * vexp) k => says h (vy_emit c k) (fun tab ind => cat [fst kv; "="; vtext tab ind (snd kv)])) kws ks).
    { clear NE Fk. revert ks Ek Zkws. induction kws as [|kv kws IHk]; intros [|k ks] Ek Zk; try contradiction; [constructor|].
      destruct Ek as (Ak & Fa & U & Ek). destruct Zk as ((Ok & Zk) & Zks).
      inversion IHkws as [|? ? P1 P2]; subst. constructor; [|apply (IHk P2 ks Ek Zks)].
      exact (speaks_keyword h c (fst kv) (snd kv) k P1 Ok Zk Ak Fa U). }
    pose proof (says_commas _ _ _ (fun kv tab ind => cat [fst kv; "="; vtext tab ind (snd kv)]) _ _ K) as S2.
    destruct kws as [|kv kws].
    + inversion K; subst. cbn [not_empty when].
      eapply says_ext.
      { apply says_app; [apply (IHf h c v Nv Zf)|]. tk. apply says_app; [exact S1|].
        apply says_app; [exact says_nil|]. exact (says_tok ")" eq_refl). }
      intros. cbn [vtext map]. rewrite app_nil_r, (base_text f _ Kf). text_eq.
    + assert (N2 : args <> []) by (destruct NE as [NE|NE]; [discriminate|exact NE]).
      destruct ks as [|k ks]; [inversion K|]. cbn [not_empty when].
      eapply says_ext.
      { apply says_app; [apply (IHf h c v Nv Zf)|]. tk. apply says_app; [exact S1|].
        apply says_app; [exact (says_cons_tok "," eq_refl (says_cons_space S2))|]. exact (says_tok ")" eq_refl). }
      intros. cbn [vtext]. rewrite (base_text f _ Kf). rewrite sjoin_app; [text_eq|now destruct args|discriminate].
  - destruct H as (A & ns & F & El). apply easy_all in Z. rewrite (vy_at c n _ _ A eq_refl). unfold v_List, v_array.
    rewrite (arr_of_fld _ _ _ F). cbn [opt].
    eapply says_ext.
    { tk. apply says_app; [|exact (says_tok "]" eq_refl)].
      apply (says_commas _ _ _ _ _ _ (speaks_elements h c l ns IHl Z El)). }
    text_eq.
  - destruct Z.
  - destruct H as (A & ks & vs & Fk & Fv & El). rewrite (vy_at c n _ _ A eq_refl). unfold v_Dict.
    rewrite (arr_of_fld _ _ _ Fk), (arr_of_fld _ _ _ Fv). cbn [opt].
    destruct h as [|h].
    { cbn [easy] in Z. subst l. destruct ks; [|contradiction]. destruct vs; [|contradiction].
      cbn [length Nat.eqb not_empty when app]. exact (says_cons_tok "{" eq_refl (says_tok "}" eq_refl)). }
    assert (K : Forall2 (fun (kv : vexp * vexp) k => says h (vy_emit c k) (fun tab ind => vtext tab ind (fst kv))) l ks /\
                Forall2 (fun (kv : vexp * vexp) v => says h (vy_emit c v) (fun tab ind => vtext tab ind (snd kv))) l vs).
    { clear Fk Fv A. cbn [easy] in Z. revert ks vs El Z. induction l as [|kv l IH]; intros [|k ks] [|v vs] El Z; try contradiction; [split; constructor|].
      destruct El as (Nk & Nv & El). destruct Z as ((Zk & Zv) & Z). inversion IHl as [|? ? P1 P2]; subst. destruct P1 as (Pk & Pv).
      destruct (IH P2 ks vs El Z) as (G1 & G2). split; constructor; auto. }
    destruct K as (K1 & K2).
    pose proof (Forall2_same_length _ _ _ _ _ K1) as L1. pose proof (Forall2_same_length _ _ _ _ _ K2) as L2.
    replace (Nat.eqb (length ks) (length vs)) with true by (symmetry; apply Nat.eqb_eq; congruence).
    pose proof (says_inside (says_pairs _ _ _ _ _ K1 K2)) as S.
    destruct l as [|kv l].
    + inversion K1; subst. cbn [not_empty when app]. exact (says_cons_tok "{" eq_refl (says_tok "}" eq_refl)).
    + destruct ks as [|k ks]; [discriminate|]. cbn [not_empty when].
      eapply says_ext.
      { tk. apply says_app; [|exact (says_tok "}" eq_refl)].
        change ([Newline; Inc] ++ v_pairs (vy_emit c) (k :: ks) vs ++ [Dec; Newline; Indent])
          with (Newline :: (Inc :: v_pairs (vy_emit c) (k :: ks) vs ++ ([Dec] ++ [Newline; Indent]))).
        nl. rewrite app_assoc, app_comm_cons. apply says_app; [exact S|].
        exact (says_cons_newline (says_cons_indent says_nil)). }
      intros. cbn [vtext]. change (map (fun kv => cat [margin tab (ind + 1); vtext tab (ind + 1) (fst kv); ": "; vtext tab (ind + 1) (snd kv)]) (kv :: l))
        with (map (pair_text tab (ind + 1)) (kv :: l)).
      cbv beta. generalize (sjoin (String.append "," newline) (map (pair_text tab (ind + 1)) (kv :: l))). intros z. text_eq.
Qed.
