(** The Solidity printer writes the text of the program (expressions). *)
From Coq Require Import String Ascii List NArith ZArith Bool Lia.
From Verif Require Import Base Json JsonFacts Printer VyPrinter SolPrinter SpecPrinter SpecLiteral SpecVyText SpecSolText
  TextFacts LayoutFacts EmitFacts VyEmit SolEmit PrintFacts LitFacts IdealFacts VyText.
Import ListNotations.
Open Scope string_scope.
Open Scope list_scope.

(** ** Induction on expressions *)

Definition OForall {A} (P : A -> Prop) (o : option A) : Prop := match o with Some a => P a | None => True end.

Lemma sexp_ind' : forall P : sexp -> Prop,
  (forall x, P (XId x)) -> (forall s u, P (XLit s u)) -> (forall s, P (XStr s)) -> (forall s, P (XUnicode s)) -> (forall s, P (XHex s)) ->
  (forall op a b, P a -> P b -> P (XBin op a b)) -> (forall op a, P a -> P (XPre op a)) -> (forall op a, P a -> P (XPost op a)) ->
  (forall c a b, P c -> P a -> P b -> P (XCond c a b)) -> (forall op a b, P a -> P b -> P (XAssign op a b)) ->
  (forall f args, P f -> Forall P args -> P (XCall f args)) ->
  (forall f args, P f -> Forall (fun kv => P (snd kv)) args -> P (XNamed f args)) ->
  (forall f args, P f -> Forall (fun kv => P (snd kv)) args -> P (XOpts f args)) ->
  (forall a x, P a -> P (XMember a x)) -> (forall a i, P a -> OForall P i -> P (XIndex a i)) ->
  (forall a i j, P (XSlice a i j)) ->
  (forall l, Forall (OForall P) l -> P (XTuple l)) -> (forall l, P (XArray l)) ->
  (forall t, P t -> P (XNew t)) -> (forall t, P (XType t)) -> (forall x p, P (TName x p)) -> (forall x, P (TUser x)) ->
  (forall k kn v vn, P k -> P v -> P (TMap k kn v vn)) -> (forall t len, P t -> OForall P len -> P (TArr t len)) ->
  (forall ps e m rs, Forall (fun p => P (fst (fst p))) ps -> P (TFun ps e m rs)) ->
  forall e, P e.
Proof.
  intros P H1 H2 H3 H4 H5 H6 H7 H8 H9 H10 H11 H12 H13 H14 H15 H16 H17 H18 H19 H20 H21 H22 H23 H24 H25.
  fix IH 1. intros e. destruct e.
  - apply H1. - apply H2. - apply H3. - apply H4. - apply H5.
  - apply H6; apply IH. - apply H7; apply IH. - apply H8; apply IH. - apply H9; apply IH. - apply H10; apply IH.
  - apply H11; [apply IH|]. revert args. fix G 1. intros [|x l]; constructor; [apply IH|apply G].
  - apply H12; [apply IH|]. revert args. fix G 1. intros [|x l]; constructor; [apply IH|apply G].
  - apply H13; [apply IH|]. revert opts. fix G 1. intros [|x l]; constructor; [apply IH|apply G].
  - apply H14; apply IH.
  - apply H15; [apply IH|]. destruct i; [apply IH|exact I].
  - apply H16.
  - apply H17. revert l. fix G 1. intros [|x l]; constructor; [destruct x; [apply IH|exact I]|apply G].
  - apply H18. - apply H19; apply IH. - apply H20. - apply H21. - apply H22. - apply H23; apply IH.
  - apply H24; [apply IH|]. destruct len; [apply IH|exact I].
  - apply H25. revert ps. fix G 1. intros [|x l]; constructor; [apply IH|apply G].
Qed.

(** ** Fields *)

Lemma sol_at : forall c n ty p, is_n n ty -> assoc ty sol_table = Some p -> sol_emit c n = p c sol_emit n.
Proof.
  intros c n ty p H E. rewrite sol_emit_unfold. unfold sol_printer_for.
  rewrite (get_str_plain n "nodeType" _ eq_refl H), E. reflexivity.
Qed.

Lemma get_str_gone : forall n k, plain_key k = true -> gone n k -> get_str n k = None.
Proof. intros n k P H. unfold get_str. now rewrite (kget_plain n k P), H. Qed.

Lemma sub_gone : forall f n k, gone n k -> sub f n k = [].
Proof. intros f n k H. unfold sub. now rewrite H. Qed.

Lemma get_array_fld : forall n k l, plain_key k = true -> fld n k (JArr l) -> get_array n k = Some l.
Proof. intros n k l P H. unfold get_array. now rewrite (kget_plain n k P), H. Qed.

Lemma get_array_gone : forall n k, plain_key k = true -> gone n k -> get_array n k = None.
Proof. intros n k P H. unfold get_array. now rewrite (kget_plain n k P), H. Qed.

Lemma get_bool_fld : forall n k b, plain_key k = true -> fld n k (JBool b) -> get_bool n k = Some b.
Proof. intros n k b P H. unfold get_bool. now rewrite (kget_plain n k P), H. Qed.

Lemma sflag_flag : forall n k b, plain_key k = true -> flag n k b -> sflag n k = b.
Proof.
  intros n k b P [H|[-> H]]; unfold sflag, get_bool; rewrite (kget_plain n k P), H; reflexivity.
Qed.

Lemma sflag_gone : forall n k, plain_key k = true -> gone n k -> sflag n k = false.
Proof. intros n k P H. apply (sflag_flag n k false P). now right. Qed.

Lemma arr_gone : forall n k, gone n k -> arr_of n k = None.
Proof. intros n k H. unfold arr_of. now rewrite H. Qed.

Lemma opt_gone : forall n k (f : json -> list cmd), gone n k -> opt (oget n k) f = [].
Proof. intros n k f H. now rewrite H. Qed.
Lemma opt_fld : forall n k v (f : json -> list cmd), fld n k v -> opt (oget n k) f = f v.
Proof. intros n k v f H. now rewrite H. Qed.

Lemma oget_gone : forall n k, gone n k -> oget n k = None.
Proof. intros n k H. exact H. Qed.
Lemma oget_fld : forall n k v, fld n k v -> oget n k = Some v.
Proof. intros n k v H. exact H. Qed.

Ltac fields := repeat match goal with
  | H : fld ?n ?k (JStr ?s) |- context [get_str ?n ?k] => rewrite (get_str_plain n k s eq_refl H)
  | H : gone ?n ?k |- context [get_str ?n ?k] => rewrite (get_str_gone n k eq_refl H)
  | H : flag ?n ?k ?b |- context [sflag ?n ?k] => rewrite (sflag_flag n k b eq_refl H)
  | H : gone ?n ?k |- context [sflag ?n ?k] => rewrite (sflag_gone n k eq_refl H)
  | H : fld ?n ?k (JBool ?b) |- context [sflag ?n ?k] => rewrite (sflag_flag n k b eq_refl (or_introl H))
  | H : fld ?n ?k (JBool ?b) |- context [get_bool ?n ?k] => rewrite (get_bool_fld n k b eq_refl H)
  | H : fld ?n ?k (JArr ?l) |- context [arr_of ?n ?k] => rewrite (arr_of_fld n k l H)
  | H : gone ?n ?k |- context [arr_of ?n ?k] => rewrite (arr_gone n k H)
  | H : fld ?n ?k (JArr ?l) |- context [get_array ?n ?k] => rewrite (get_array_fld n k l eq_refl H)
  | H : gone ?n ?k |- context [get_array ?n ?k] => rewrite (get_array_gone n k eq_refl H)
  | H : fld ?n ?k ?v |- context [sub ?f ?n ?k] => rewrite (sub_fld f n k v H)
  | H : gone ?n ?k |- context [sub ?f ?n ?k] => rewrite (sub_gone f n k H)
  | H : fld ?n ?k ?v |- context [oget ?n ?k] => rewrite (oget_fld n k v H)
  | H : gone ?n ?k |- context [oget ?n ?k] => rewrite (oget_gone n k H)
  end; cbn [opt].

(** Sequences. *)
Lemma says_deeper : forall h x t rest r, says h x t -> says (S h) rest r ->
  says (S h) (Inc :: x ++ Dec :: rest) (fun tab ind => String.append (t tab (ind + 1)%N) (r tab ind)).
Proof.
  intros h x t rest r H R. change (Inc :: x ++ Dec :: rest) with (Inc :: x ++ [Dec] ++ rest).
  rewrite app_assoc, app_comm_cons. exact (says_app (says_inside H) R).
Qed.
Arguments says_deeper [h x t rest r].

Lemma says_more1 : forall h l t, says h l t -> says (S h) l t.
Proof. intros h l t H. apply (says_more h); [lia|exact H]. Qed.

Ltac text_eq := intros; cbv beta;
  repeat (progress (cbn [cat fold_right xtext otext flagged map sjoin String.append]; rewrite ?app_nil_r_s, ?app_assoc_s)); try reflexivity.
Ltac flat := repeat (progress (cbn [app when]; rewrite <- ?app_assoc)).
Ltac line := first [reflexivity | assumption].
Ltac say := cbn [app]; repeat first
  [ eassumption
  | apply says_nil
  | eapply says_cons_tok; [line|]
  | eapply says_cons_space
  | eapply says_cons_newline
  | eapply says_cons_indent
  | eapply says_app ].

(** ** Literals *)

Lemma escaped_simple : forall s, Forall simple_char (list_ascii_of_string s) -> escaped s = s.
Proof.
  induction s as [|c s IH]; [reflexivity|]. intros H. inversion H as [|? ? ((L & U) & Q & B) F]; subst.
  unfold escaped. cbn [list_ascii_of_string map].
  destruct (Ascii.eqb_spec c """"); [contradiction|]. destruct (Ascii.eqb_spec c "\"); [contradiction|]. cbn [orb].
  replace ((32 <=? N_of_ascii c) && (N_of_ascii c <? 127))%N with true
    by (symmetry; apply andb_true_intro; split; [now apply N.leb_le|now apply N.ltb_lt]).
  cbn [cat fold_right String.append]. f_equal. exact (IH F).
Qed.

Lemma escaped_unicode_simple : forall s, Forall simple_unicode (list_ascii_of_string s) -> escaped_unicode s = s.
Proof.
  induction s as [|c s IH]; [reflexivity|]. intros H. inversion H as [|? ? (L & Q & B) F]; subst.
  unfold escaped_unicode. cbn [list_ascii_of_string map].
  destruct (Ascii.eqb_spec c """"); [contradiction|]. destruct (Ascii.eqb_spec c "\"); [contradiction|]. cbn [orb].
  replace (N_of_ascii c <? 32)%N with false by (symmetry; apply N.ltb_ge; exact L).
  cbn [cat fold_right String.append]. f_equal. exact (IH F).
Qed.

Lemma chars_ascii : forall s, Forall simple_char (list_ascii_of_string s) -> unencode s = s.
Proof.
  unfold unencode. induction s as [|c s IH]; [reflexivity|]. intros H. inversion H as [|? ? ((L & U) & Q & B) F]; subst.
  cbn [chars]. replace (N_of_ascii c <? 192)%N with true by (symmetry; apply N.ltb_lt; lia).
  cbn [map fold_right]. unfold unencode_char at 1.
  replace (N_of_ascii c <? 32)%N with false by (symmetry; apply N.ltb_ge; exact L).
  replace (N_of_ascii c <? 127)%N with true by (symmetry; apply N.ltb_lt; exact U).
  rewrite ascii_N_embedding. cbn [String.append]. f_equal. exact (IH F).
Qed.

Lemma line_of_chars : forall s, Forall (fun c => (32 <= N_of_ascii c)%N) (list_ascii_of_string s) -> one_line s.
Proof.
  unfold one_line. induction s as [|c s IH]; [reflexivity|]. intros H. inversion H as [|? ? L F]; subst.
  cbn [str_contains]. destruct (Ascii.eqb_spec "010" c) as [<-|_]; [|exact (IH F)]. exfalso. apply L. reflexivity.
Qed.

Lemma simple_line : forall s, Forall simple_char (list_ascii_of_string s) -> one_line s.
Proof. intros s H. apply line_of_chars. eapply Forall_impl; [|exact H]. intros c ((L & _) & _). exact L. Qed.
Lemma unicode_line : forall s, Forall simple_unicode (list_ascii_of_string s) -> one_line s.
Proof. intros s H. apply line_of_chars. eapply Forall_impl; [|exact H]. intros c (L & _). exact L. Qed.

(** ** Expressions *)

Definition xspeaks (e : sexp) : Prop :=
  forall h c n, xnode e n -> xeasy h e -> says h (sol_emit c n) (fun tab ind => xtext tab ind e).

Lemma tight_text : forall e k t, k <= tightness e -> paren (Nat.ltb (tightness e) k) t = t.
Proof. intros e k t H. replace (Nat.ltb (tightness e) k) with false by (symmetry; apply Nat.ltb_ge; exact H). reflexivity. Qed.

Lemma binary_ops_line : forall op, In op binary_ops -> one_line op.
Proof. intros op I. cbn in I. repeat (destruct I as [<-|I]; [reflexivity|]). destruct I. Qed.

Lemma xeasy_all : forall h l, (fix all l := match l with [] => True | e :: l => xeasy h e /\ all l end) l -> Forall (xeasy h) l.
Proof. intros h. induction l as [|e l IH]; [constructor|]. intros (H & G). constructor; [exact H|apply IH, G]. Qed.

Lemma xelements_Forall2 : forall R es ns, xelements R es ns -> Forall2 R es ns.
Proof.
  intros R es. induction es as [|e es IH]; intros [|n ns] H; try contradiction; constructor; [apply H|apply IH, H].
Qed.

Lemma xspeaks_list : forall h c es ns, Forall xspeaks es -> Forall (xeasy h) es -> Forall2 xnode es ns ->
  Forall2 (fun e n => says h (sol_emit c n) (fun tab ind => xtext tab ind e)) es ns.
Proof. intros h c es ns F Z H. induction H; inversion F; inversion Z; subst; constructor; auto. Qed.

Lemma commas_say : forall A (T : N -> N -> A -> string) h f l ns,
  Forall2 (fun e n => says h (f n) (fun tab ind => T tab ind e)) l ns ->
  says h (commas f ns) (fun tab ind => sjoin ", " (map (T tab ind) l)).
Proof. intros A T h f l ns F. exact (says_commas A h f (fun e tab ind => T tab ind e) l ns F). Qed.

Lemma null_says : forall h c, says h (sol_emit c JNull) (fun _ _ => "").
Proof. intros h c. exact says_nil. Qed.

Lemma is_n_not_null : forall n ty, is_n n ty -> is_null n = false.
Proof. intros n ty H. destruct n; try reflexivity. discriminate H. Qed.

Definition xtype_of (e : sexp) (ty : string) : Prop :=
  match e with
  | XId _ => ty = "Identifier" \/ ty = "IdentifierPath"
  | XLit _ _ | XStr _ | XUnicode _ | XHex _ => ty = "Literal"
  | XBin _ _ _ => ty = "BinaryOperation" | XPre _ _ | XPost _ _ => ty = "UnaryOperation" | XCond _ _ _ => ty = "Conditional"
  | XAssign _ _ _ => ty = "Assignment" | XCall _ _ | XNamed _ _ => ty = "FunctionCall" | XOpts _ _ => ty = "FunctionCallOptions"
  | XMember _ _ => ty = "MemberAccess" | XIndex _ _ => ty = "IndexAccess" | XSlice _ _ _ => ty = "IndexRangeAccess"
  | XTuple _ | XArray _ => ty = "TupleExpression" | XNew _ => ty = "NewExpression" | XType _ => ty = "ElementaryTypeNameExpression"
  | TName _ _ => ty = "ElementaryTypeName" | TUser _ => ty = "UserDefinedTypeName" | TMap _ _ _ _ => ty = "Mapping"
  | TArr _ _ => ty = "ArrayTypeName" | TFun _ _ _ _ => ty = "FunctionTypeName"
  end.

Lemma xnode_type : forall e n, xnode e n -> exists ty, is_n n ty /\ xtype_of e ty.
Proof.
  intros e n H. destruct e; cbn [xnode] in H;
    try (destruct H as (H & _); eexists; split; [exact H|cbn; tauto]).
  destruct H as ([H|H] & _); eexists; (split; [exact H|cbn; tauto]).
Qed.

Lemma xnode_not_null : forall e n, xnode e n -> is_null n = false.
Proof. intros e n H. destruct (xnode_type e n H) as (ty & H1 & _). exact (is_n_not_null n ty H1). Qed.

(** Components, some of them left out. *)
Lemma holes_cons : forall x y l,
  holes (x :: y :: l) =
  cat [match x with Some s => s | None => "" end; match y with Some _ => ", " | None => "," end; holes (y :: l)].
Proof. intros x [y|] l; reflexivity. Qed.

Lemma components_say : forall A (R : A -> json -> Prop) (T : N -> N -> A -> string) h f l ns,
  (forall a n, R a n -> is_null n = false) -> (forall h, says h (f JNull) (fun _ _ => "")) ->
  Forall2 (fun o n => match o with Some a => R a n /\ says h (f n) (fun tab ind => T tab ind a) | None => n = JNull end) l ns ->
  says h (s_components f ns) (fun tab ind => holes (map (option_map (T tab ind)) l)).
Proof.
  intros A R T h f l ns NN SN F. unfold s_components. induction F as [|o n l ns H F IH]; [exact says_nil|].
  cbn [each].
  assert (S1 : says h (f n) (fun tab ind => match option_map (T tab ind) o with Some s => s | None => "" end)).
  { destruct o as [a|]; [exact (proj2 H)|]. subst n. apply SN. }
  destruct F as [|o2 n2 l ns H2 F].
  - eapply says_ext; [say|]. intros. cbn [map holes]. text_eq.
  - assert (S2 : says h (Tok "," :: when (negb (is_null n2)) [Space])
                      (fun tab ind => match option_map (T tab ind) o2 with Some _ => ", " | None => "," end)).
    { destruct o2 as [a|].
      - rewrite (NN _ _ (proj1 H2)). exact (says_cons_tok "," eq_refl (says_cons_space says_nil)).
      - subst n2. exact (says_tok "," eq_refl). }
    eapply says_ext; [exact (says_app S1 (says_app S2 IH))|].
    intros. cbv beta. cbn [map]. rewrite holes_cons.
    generalize (holes (option_map (T tab ind) o2 :: map (option_map (T tab ind)) l)) as z. intros z.
    destruct o2; cbn [option_map cat fold_right]; rewrite ?app_nil_r_s; reflexivity.
Qed.

Lemma named_say : forall h c kvs ks vs,
  Forall (fun kv => xspeaks (snd kv)) kvs ->
  (fix go (l : list (string * sexp)) := match l with [] => True | kv :: l => (one_line (fst kv) /\ xeasy h (snd kv)) /\ go l end) kvs ->
  (fix go (kvs : list (string * sexp)) (ks vs : list json) :=
    match kvs, ks, vs with
    | [], [], [] => True
    | kv :: kvs, k :: ks, v :: vs => k = JStr (fst kv) /\ xnode (snd kv) v /\ go kvs ks vs
    | _, _, _ => False
    end) kvs ks vs ->
  length kvs = length ks /\ length ks = length vs /\
  says h (s_named (sol_emit c) ks vs) (fun tab ind =>
    sjoin "," (map (fun kv => cat [newline; margin tab ind; fst kv; ": "; xtext tab ind (snd kv)]) kvs)) /\
  says h (s_options (sol_emit c) ks vs) (fun tab ind =>
    sjoin ", " (map (fun kv => cat [fst kv; ": "; xtext tab ind (snd kv)]) kvs)).
Proof.
  intros h c. induction kvs as [|kv kvs IH]; intros [|k ks] [|v vs] S Z N; try contradiction.
  - split; [reflexivity|]. split; [reflexivity|]. split; exact says_nil.
  - destruct N as (-> & Nv & N). destruct Z as ((Zk & Zv) & Z). inversion S as [|? ? Sv Ss]; subst.
    destruct (IH ks vs Ss Z N) as (L1 & L2 & I1 & I2). specialize (Sv h c v Nv Zv).
    split; [cbn; now f_equal|]. split; [cbn; now f_equal|]. cbn [s_named s_options as_str].
    destruct kvs as [|kv2 kvs]; destruct ks as [|k2 ks]; try discriminate L1; cbn [not_empty when app].
    + destruct vs; [|discriminate]. cbn [s_named s_options] in *. clear I1 I2 IH. split.
      * eapply says_ext; [say|]. text_eq.
      * eapply says_ext; [say|]. text_eq.
    + split.
      * eapply says_ext; [say|]. intros. cbv beta.
        change (map ?f (kv :: kv2 :: kvs)) with (f kv :: map f (kv2 :: kvs)).
        match goal with |- _ = sjoin "," (?x :: map ?f (kv2 :: kvs)) =>
          change (sjoin "," (x :: map f (kv2 :: kvs))) with (String.append x (String.append "," (sjoin "," (map f (kv2 :: kvs)))));
          generalize (sjoin "," (map f (kv2 :: kvs))) end.
        intros z. text_eq.
      * eapply says_ext; [say|]. intros. cbv beta.
        change (map ?f (kv :: kv2 :: kvs)) with (f kv :: map f (kv2 :: kvs)).
        match goal with |- _ = sjoin ", " (?x :: map ?f (kv2 :: kvs)) =>
          change (sjoin ", " (x :: map f (kv2 :: kvs))) with (String.append x (String.append ", " (sjoin ", " (map f (kv2 :: kvs)))));
          generalize (sjoin ", " (map f (kv2 :: kvs))) end.
        intros z. text_eq.
Qed.

(** The parameters of a function type. *)
Lemma location_spaced : forall s, In s locations ->
  opt (Some (if s =?s "" then "default" else s)) (fun s => when (smem s ["memory"; "storage"; "calldata"]) [Space; Tok s]) =
  (if s =?s "" then [] else [Space; Tok s]).
Proof. intros s I. cbn in I. repeat (destruct I as [<-|I]; [reflexivity|]). destruct I. Qed.

Lemma spaced_says : forall h s, one_line s -> says h (when (negb (is_empty_str s)) [Space; Tok s]) (fun _ _ => spaced s).
Proof.
  intros h [|c s] H; [exact says_nil|]. cbn [is_empty_str negb when].
  eapply says_ext; [say|]. intros. cbn. now rewrite ?app_nil_r_s.
Qed.

Lemma location_says : forall h s, In s locations ->
  says h (opt (Some (if s =?s "" then "default" else s)) (fun s => when (smem s ["memory"; "storage"; "calldata"]) [Space; Tok s]))
       (fun _ _ => spaced s).
Proof.
  intros h s I. rewrite location_spaced by exact I. cbn in I.
  repeat (destruct I as [<-|I]; [first [exact says_nil | eapply says_ext; [say; reflexivity|text_eq]]|]). destruct I.
Qed.

Lemma fun_params_say : forall h c ps ns,
  Forall (fun p => xspeaks (fst (fst p))) ps ->
  (fix go (l : list (sexp * string * string)) :=
     match l with
     | [] => True
     | p :: l => (xeasy h (fst (fst p)) /\ In (snd (fst p)) locations /\ one_line (snd p)) /\ go l
     end) ps ->
  (fix go (ps : list (sexp * string * string)) (ns : list json) :=
     match ps, ns with
     | [], [] => True
     | p :: ps, n :: ns =>
         (is_n n "VariableDeclaration" /\ (exists t, fld n "typeName" t /\ xnode (fst (fst p)) t) /\
          fld n "storageLocation" (JStr (if snd (fst p) =?s "" then "default" else snd (fst p))) /\
          fld n "name" (JStr (snd p)) /\ flag n "constant" false /\ gone n "documentation" /\ gone n "indexed" /\
          gone n "overrides" /\ gone n "value" /\ fld n "visibility" (JStr "internal") /\ fld n "mutability" (JStr "mutable")) /\
         go ps ns
     | _, _ => False
     end) ps ns ->
  Forall2 (fun p n => says h (sol_emit c n)
    (fun tab ind => cat [xtext tab ind (fst (fst p)); spaced (snd (fst p)); spaced (snd p)])) ps ns.
Proof.
  intros h c ps. induction ps as [|p ps IH]; intros [|n ns] S Z N; try contradiction; constructor.
  - destruct N as ((A & (t & Ft & Nt) & Fl & Fn & Fc & Fd & Fi & Fo & Fv & Fs & Fm) & _).
    destruct Z as ((Zt & Zl & Zn) & _). inversion S as [|? ? St _]; subst. specialize (St h c t Nt Zt).
    rewrite (sol_at c n _ _ A eq_refl). unfold s_VariableDeclaration, s_documentation. fields.
    change (negb ("internal" =?s "internal")) with false. change ("mutable" =?s "immutable") with false. cbn [when app].
    pose proof (location_says h _ Zl) as L. pose proof (spaced_says h _ Zn) as Nm. cbn [opt] in L.
    eapply says_ext; [say|]. intros. cbv beta. text_eq.
  - inversion S; subst. apply IH; [assumption|apply Z|apply N].
Qed.

Lemma all_xspeak : forall e, xspeaks e.
Proof.
  induction e using sexp_ind'; intros h c n N Z; cbn [xnode xeasy] in N, Z; try contradiction.
  - (* XId *)
    destruct N as (A & F).
    assert (E : sol_emit c n = s_name n) by (destruct A as [A|A]; rewrite (sol_at c n _ _ A eq_refl); reflexivity).
    rewrite E. unfold s_name, tok_of. fields. exact (says_tok x Z).
  - (* XLit *)
    destruct N as (A & K & V & U). destruct Z as (Zs & Zu). rewrite (sol_at c n _ _ A eq_refl). unfold s_Literal.
    fields.
    replace (match get_str n "kind" with
      | Some k => if k =?s "string" then [Tok (quoted (unencode s))]
                  else if k =?s "unicodeString" then [Tok "unicode"; Tok (quoted s)] else [Tok s]
      | None => [Tok s] end) with [Tok s] by (destruct K; fields; reflexivity).
    destruct u as [u|]; fields; cbn in Zu.
    + eapply says_ext; [say|text_eq].
    + eapply says_ext; [say|text_eq].
  - (* XStr *)
    destruct N as (A & K & V & U). rewrite (sol_at c n _ _ A eq_refl). unfold s_Literal. fields. cbn [app].
    change ("string" =?s "string") with true. cbv iota. rewrite (chars_ascii s Z).
    pose proof (quoted_line s (simple_line s Z)) as Q.
    eapply says_ext; [say|]. intros. cbv beta. cbn [xtext]. rewrite (escaped_simple s Z). unfold quoted. text_eq.
  - (* XUnicode *)
    destruct N as (A & K & V & U). rewrite (sol_at c n _ _ A eq_refl). unfold s_Literal. fields. cbn [app].
    change ("unicodeString" =?s "string") with false. change ("unicodeString" =?s "unicodeString") with true. cbv iota.
    pose proof (quoted_line s (unicode_line s Z)) as Q.
    eapply says_ext; [say|]. intros. cbv beta. cbn [xtext]. rewrite (escaped_unicode_simple s Z). unfold quoted. text_eq.
  - (* XBin *)
    destruct N as (A & Op & O & (a & Fa & Na) & (b & Fb & Nb)). destruct Z as (La & Lb & Za & Zb).
    specialize (IHe1 h c a Na Za). specialize (IHe2 h c b Nb Zb). pose proof (binary_ops_line op Op) as Q.
    rewrite (sol_at c n _ _ A eq_refl). unfold s_BinaryOperation, s_operator. fields.
    eapply says_ext; [say|]. intros. cbv beta. cbn [xtext]. rewrite !tight_text by assumption. text_eq.
  - (* XPre *)
    destruct N as (A & P & O & (a & Fa & Na)). destruct Z as (Q & L & K & Za). specialize (IHe h c a Na Za).
    rewrite (sol_at c n _ _ A eq_refl). unfold s_UnaryOperation. fields. cbn [when negb]. rewrite app_nil_r.
    destruct (op =?s "delete") eqn:D.
    + apply String.eqb_eq in D. subst op.
      eapply says_ext; [say|]. intros. cbv beta. cbn [xtext]. rewrite tight_text by assumption. text_eq.
    + eapply says_ext; [say|]. intros. cbv beta. cbn [xtext]. rewrite tight_text by assumption. rewrite D, K. text_eq.
  - (* XPost *)
    destruct N as (A & P & O & (a & Fa & Na)). destruct Z as (Q & L & Za). specialize (IHe h c a Na Za).
    rewrite (sol_at c n _ _ A eq_refl). unfold s_UnaryOperation, tok_of. fields. cbn [when negb app].
    eapply says_ext; [say|]. intros. cbv beta. cbn [xtext]. rewrite tight_text by assumption. text_eq.
  - (* XCond *)
    destruct N as (A & (x & Fx & Nx) & (a & Fa & Na) & (b & Fb & Nb)). destruct Z as (L & Zc & Za & Zb).
    specialize (IHe1 h c x Nx Zc). specialize (IHe2 h c a Na Za). specialize (IHe3 h c b Nb Zb).
    rewrite (sol_at c n _ _ A eq_refl). unfold s_Conditional. fields.
    eapply says_ext; [say|]. intros. cbv beta. cbn [xtext]. rewrite tight_text by assumption. text_eq.
  - (* XAssign *)
    destruct N as (A & O & (a & Fa & Na) & (b & Fb & Nb)). destruct Z as (Q & L & Za & Zb).
    specialize (IHe1 h c a Na Za). specialize (IHe2 h c b Nb Zb).
    rewrite (sol_at c n _ _ A eq_refl). unfold s_Assignment, s_operator. fields.
    eapply says_ext; [say|]. intros. cbv beta. cbn [xtext]. rewrite tight_text by assumption. text_eq.
  - (* XCall *)
    destruct N as (A & (f & Ff & Nf) & (l & Fl & Nl) & Fn & Ft). destruct Z as (L & Zf & Zl).
    specialize (IHe h c f Nf Zf).
    pose proof (commas_say _ xtext _ _ _ _ (xspeaks_list h c _ _ H (xeasy_all h args Zl) (xelements_Forall2 _ _ _ Nl))) as C.
    rewrite (sol_at c n _ _ A eq_refl). unfold s_FunctionCall, s_arguments. fields. cbn [not_empty when].
    eapply says_ext; [say|]. intros. cbv beta. cbn [xtext]. rewrite tight_text by assumption.
    generalize (sjoin ", " (map (xtext tab ind) args)). text_eq.
  - (* XNamed *)
    destruct N as (A & (f & Ff & Nf) & Ne & Ft & (ks & vs & Fk & Fv & Nn)). destruct Z as (L & Zf & Zl).
    specialize (IHe h c f Nf Zf). destruct h as [|h]; [contradiction|].
    destruct (named_say h c args ks vs H Zl Nn) as (L1 & L2 & S1 & _).
    rewrite (sol_at c n _ _ A eq_refl). unfold s_FunctionCall. fields. cbn [when].
    replace (not_empty ks) with true by (destruct ks; [destruct args; [congruence|discriminate]|reflexivity]).
    replace (Nat.eqb (length ks) (length vs)) with true by (symmetry; apply Nat.eqb_eq; exact L2).
    cbv iota. flat.
    eapply says_ext; [eapply says_app; [exact IHe|]; eapply says_cons_tok; [line|]; eapply says_cons_tok; [line|];
      eapply says_deeper; [exact S1|]; say|].
    intros. cbv beta. cbn [xtext]. rewrite tight_text by assumption.
    match goal with |- context [sjoin "," ?l] => generalize (sjoin "," l) end. text_eq.
  - (* XOpts *)
    destruct N as (A & (f & Ff & Nf) & (ks & vs & Fk & Fv & Nn)). destruct Z as (L & Zf & Ne & Zl).
    specialize (IHe h c f Nf Zf).
    destruct (named_say h c args ks vs H Zl Nn) as (L1 & L2 & _ & S2).
    rewrite (sol_at c n _ _ A eq_refl). unfold s_FunctionCallOptions. fields.
    replace (not_empty ks) with true by (destruct ks; [destruct args; [congruence|discriminate]|reflexivity]).
    replace (Nat.eqb (length ks) (length vs)) with true by (symmetry; apply Nat.eqb_eq; exact L2).
    cbn [when]. eapply says_ext; [say|].
    intros. cbv beta. cbn [xtext]. rewrite tight_text by assumption.
    match goal with |- context [sjoin ", " ?l] => generalize (sjoin ", " l) end. text_eq.
  - (* XMember *)
    destruct N as (A & (a & Fa & Na) & M). destruct Z as (L & Za & Q). specialize (IHe h c a Na Za).
    rewrite (sol_at c n _ _ A eq_refl). unfold s_MemberAccess, tok_of. fields.
    eapply says_ext; [say|]. intros. cbv beta. cbn [xtext]. rewrite tight_text by assumption. text_eq.
  - (* XIndex *)
    destruct N as (A & (a & Fa & Na) & M). destruct Z as (L & Za & Q). specialize (IHe h c a Na Za).
    rewrite (sol_at c n _ _ A eq_refl). unfold s_IndexAccess. destruct i as [i|].
    + destruct M as (v & Fv & Nv). specialize (H h c v Nv Q). fields.
      eapply says_ext; [say|]. intros. cbv beta. cbn [xtext]. rewrite tight_text by assumption. text_eq.
    + fields. eapply says_ext; [say|]. intros. cbv beta. cbn [xtext]. rewrite tight_text by assumption. text_eq.
  - (* XTuple *)
    destruct N as (A & I & (ns & Fn & Nn)). destruct Z as (Ne & Zl).
    rewrite (sol_at c n _ _ A eq_refl). unfold s_TupleExpression. fields.
    assert (C : says h (s_components (sol_emit c) ns) (fun tab ind => holes (map (option_map (xtext tab ind)) l))).
    { apply (components_say _ xnode (fun tab ind e => xtext tab ind e)); [exact xnode_not_null|intros; apply null_says|].
      clear A I Fn Ne. revert ns Nn. induction l as [|o l IH]; intros [|m ns] Nn; try contradiction; constructor.
      - inversion H as [|? ? K Ks]; subst. destruct o as [e|]; [|exact (proj1 Nn)]. split; [exact (proj1 Nn)|].
        apply K; [exact (proj1 Nn)|exact (proj1 Zl)].
      - inversion H; subst. apply IH; [assumption|exact (proj2 Zl)|exact (proj2 Nn)]. }
    replace (not_empty ns) with true by (destruct ns; [destruct l; [congruence|contradiction]|reflexivity]).
    cbn [when]. eapply says_ext; [say|]. intros. cbv beta. cbn [xtext].
    generalize (holes (map (option_map (xtext tab ind)) l)). text_eq.
  - (* XNew *)
    destruct N as (A & (t & Ft & Nt)). specialize (IHe h c t Nt Z).
    rewrite (sol_at c n _ _ A eq_refl). unfold s_NewExpression. fields. eapply says_ext; [say|text_eq].
  - (* XType *)
    destruct N as (A & P & (v & Fv & Nv)). rewrite (sol_at c n _ _ A eq_refl). unfold s_ElementaryTypeNameExpression.
    fields. cbn [when]. destruct (t =?s "payable").
    + fields. exact (says_tok t Z).
    + destruct Nv as (A2 & F2 & G2). fields. rewrite (sol_at c v _ _ A2 eq_refl). unfold s_ElementaryTypeName, s_name, tok_of.
      fields. exact (says_tok t Z).
  - (* TName *)
    destruct N as (A & F & P). rewrite (sol_at c n _ _ A eq_refl). unfold s_ElementaryTypeName, s_name, tok_of. fields.
    destruct p.
    + fields. change ("payable" =?s "payable") with true. cbn [when]. eapply says_ext; [say|text_eq].
    + replace (opt (get_str n "stateMutability") (fun s => when (s =?s "payable") [Space; Tok s])) with (@nil cmd)
        by (destruct P; fields; reflexivity).
      eapply says_ext; [say|text_eq].
  - (* TUser *)
    destruct N as (A & P). rewrite (sol_at c n _ _ A eq_refl). unfold s_UserDefinedTypeName, s_name, tok_of.
    destruct P as [(p & Fp & Np)|(G & Nn)]; fields; exact (says_tok x Z).
  - (* TMap *)
    destruct N as (A & (a & Fa & Na) & (b & Fb & Nb) & _ & _). destruct Z as (-> & -> & Zk & Zv).
    specialize (IHe1 h c a Na Zk). specialize (IHe2 h c b Nb Zv).
    rewrite (sol_at c n _ _ A eq_refl). unfold s_Mapping. fields.
    eapply says_ext; [say|text_eq].
  - (* TArr *)
    destruct N as (A & (a & Fa & Na) & M). destruct Z as (Za & Q). specialize (IHe h c a Na Za).
    rewrite (sol_at c n _ _ A eq_refl). unfold s_ArrayTypeName. destruct len as [i|].
    + destruct M as (v & Fv & Nv). specialize (H h c v Nv Q). fields. eapply says_ext; [say|text_eq].
    + fields. eapply says_ext; [say|text_eq].
  - (* TFun *)
    destruct N as (A & V & M & (v & l & Fv & Av & Fl & Nl) & _ & G). destruct Z as (-> & -> & Zp).
    pose proof (commas_say _ (fun tab ind p => cat [xtext tab ind (fst (fst p)); spaced (snd (fst p)); spaced (snd p)]) _ _ _ _ (fun_params_say h c ps l H Zp Nl)) as C.
    rewrite (sol_at c n _ _ A eq_refl). unfold s_FunctionTypeName, s_returns. fields.
    rewrite (sol_at c v _ _ Av eq_refl). unfold s_ParameterList. fields.
    destruct e.
    + change ("external" =?s "external") with true. cbn [when]. eapply says_ext; [say|].
      intros. cbv beta. cbn [xtext]. match goal with |- context [sjoin ", " ?l] => generalize (sjoin ", " l) end. text_eq.
    + change ("internal" =?s "external") with false. cbn [when]. eapply says_ext; [say|].
      intros. cbv beta. cbn [xtext]. match goal with |- context [sjoin ", " ?l] => generalize (sjoin ", " l) end. text_eq.
Qed.
