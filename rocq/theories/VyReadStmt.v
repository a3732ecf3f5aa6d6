(** Statements: their tokens, and reading these. *)
From Coq Require Import String Ascii List NArith ZArith Bool Lia.
From Verif Require Import Base Json SpecLiteral SpecVyText SpecVyRead PathFacts VyText VyTextStmt VyReadLex VyReadToks VyReadParse.
Import ListNotations.
Open Scope string_scope.
Open Scope list_scope.

(** ** Tokens *)

Definition depth (tab ind : N) : nat := N.to_nat (ind * tab).

Definition ttoks (t : vtop) : list tok :=
  match t with One e => vtoks e | Many l => tjoin [TSym ","] (map vtoks l) end.
Definition type_toks (t : vtop) : list tok :=
  match t with One e => vtoks e | Many l => TSym "(" :: tjoin [TSym ","] (map vtoks l) ++ [TSym ")"] end.
Definition otoks {A} (o : option A) (f : A -> list tok) : list tok := match o with Some a => f a | None => [] end.

Fixpoint stoks (tab ind : N) (s : vstmt) {struct s} : list tok :=
  let block l := flat_map (fun s => TLine (depth tab (ind + 1)) :: stoks tab (ind + 1) s) l in
  match s with
  | VsExpr e => vtoks e
  | VsAssign t e => ttoks t ++ TSym "=" :: ttoks e
  | VsAug t op e => vtoks t ++ TSym (String.append op "=") :: vtoks e
  | VsAnn t ty e => vtoks t ++ TSym ":" :: vtoks ty ++ otoks e (fun e => TSym "=" :: vtoks e)
  | VsReturn e => TWord "return" :: otoks e ttoks
  | VsAssert e msg => TWord "assert" :: vtoks e ++ otoks msg (fun e => TSym "," :: vtoks e)
  | VsRaise e => TWord "raise" :: vtoks e
  | VsLog e => TWord "log" :: vtoks e
  | VsWord w => [TWord w]
  | VsIf e body orelse =>
      TWord "if" :: vtoks e ++ TSym ":" :: block body ++
      match orelse with [] => [] | _ => TLine (depth tab ind) :: TWord "else" :: TSym ":" :: block orelse end
  | VsFor t it body => TWord "for" :: vtoks t ++ TWord "in" :: vtoks it ++ TSym ":" :: block body
  end.

(** ** The text of a statement gives its tokens *)

Definition eol (c : ascii) : bool := Ascii.eqb c "010".
Definition hdl (c : ascii) : bool := hd c || Ascii.eqb c "@".

Lemma eol_lxs : forall d s ts d', lxs delim d s ts d' -> lxs eol d s ts d'.
Proof. intros d s ts d'. apply lxs_weak. apply imp_chars. vm_compute. reflexivity. Qed.

Lemma nl_join : forall {A} (g : A -> string) l, l <> [] ->
  String.append newline (sjoin newline (map g l)) = cat (map (fun a => String.append newline (g a)) l).
Proof.
  intros A g l. induction l as [|a [|b l] IH]; intros H; [congruence| |].
  - cbn. now rewrite append_nil_s.
  - change (map g (a :: b :: l)) with (g a :: g b :: map g l). rewrite join_cons.
    change (g b :: map g l) with (map g (b :: l)). rewrite IH by discriminate.
    cbn [map cat fold_right]. now rewrite append_assoc.
Qed.

Lemma nl_each : forall {A} (g : A -> string) l,
  String.append newline (cat (map (fun a => String.append (g a) newline) l)) =
  String.append (cat (map (fun a => String.append newline (g a)) l)) newline.
Proof.
  intros A g l. induction l as [|a l IH]; [reflexivity|]. cbn [map cat fold_right] in *. rewrite !append_assoc. f_equal. f_equal.
  unfold cat in IH. rewrite <- IH. reflexivity.
Qed.

Lemma cat_app : forall a b, cat (a ++ b) = String.append (cat a) (cat b).
Proof. induction a as [|x a IH]; intros b; [reflexivity|]. cbn. unfold cat in IH. now rewrite IH, append_assoc. Qed.

Lemma span_spaces : forall n c r, Ascii.eqb " " c = false -> span (Ascii.eqb " ") (String.append (spaces n) (String c r)) = (spaces n, String c r).
Proof. induction n as [|n IH]; intros c r H; cbn [spaces String.append span]; [now rewrite H|]. cbn. now rewrite IH. Qed.

Lemma spaces_length : forall n, String.length (spaces n) = n.
Proof. induction n; cbn; congruence. Qed.

Lemma line_lexed : forall n t ts, headed hdl t -> lxs eol 0 t ts 0 ->
  lxs eol 0 (String.append newline (String.append (spaces n) t)) (TLine n :: ts) 0.
Proof.
  intros n t ts (c & r & E & Hc) L rest R. cbn [newline String.append]. eapply lx_tok; [|exact (L rest R)].
  assert (Q : forall c, hdl c = true -> negb (Ascii.eqb " " c) && negb (Ascii.eqb c "010") && negb (Ascii.eqb c "#") = true)
    by (apply imp_chars; vm_compute; reflexivity).
  specialize (Q c Hc). andb. rewrite !negb_true_iff in *.
  unfold next. cbn [Ascii.eqb Bool.eqb]. rewrite append_assoc, E. cbn [String.append]. rewrite span_spaces by assumption.
  rewrite spaces_length. match goal with A : Ascii.eqb c "010" = false, B : Ascii.eqb c "#" = false |- _ => rewrite A, B end. reflexivity.
Qed.

Lemma newline_end : lxs eol 0 newline [] 0.
Proof.
  intros rest R. cbn [newline String.append]. destruct rest as [|c r].
  - eapply lx_skip; [reflexivity|]. constructor.
  - cbn in R. unfold eol in R. apply Ascii.eqb_eq in R. subst c. eapply lx_skip; [reflexivity|]. constructor.
Qed.

Lemma lines_lexed : forall {A} n (t : A -> string) (tk : A -> list tok) l,
  Forall (fun a => headed hdl (t a) /\ lxs eol 0 (t a) (tk a) 0) l ->
  lxs eol 0 (cat (map (fun a => String.append newline (String.append (spaces n) (t a))) l)) (flat_map (fun a => TLine n :: tk a) l) 0.
Proof.
  intros A n t tk l F. induction F as [|a l (H1 & H2) F IH]; [apply lxs_nil|].
  cbn [map flat_map]. change (cat (?x :: ?y)) with (String.append x (cat y)).
  eapply lxs_cat; [exact (line_lexed n _ _ H1 H2)|exact IH|].
  destruct l as [|b l]; [right; left; split; auto|left]. cbn [map]. change (cat (?x :: ?y)) with (String.append x (cat y)).
  unfold newline. hdd.
Qed.

Lemma hd_hdl : forall s, headed hd s -> headed hdl s.
Proof. intros s (c & r & E & H). exists c, r. split; [exact E|]. unfold hdl. now rewrite H. Qed.

Lemma exp_delim : forall tab e ind d, spelled e = true -> lxs delim d (vtext tab ind e) (vtoks e) d.
Proof. intros tab e ind d H. apply follow_delim with e. now apply exp_lexed. Qed.

Lemma list_lexed : forall tab l ind d, forallb spelled l = true -> lxs delim d (sjoin ", " (map (vtext tab ind) l)) (tjoin [TSym ","] (map vtoks l)) d.
Proof.
  intros tab l ind d H. eapply (lxs_join _ ", " "," " "); [reflexivity|reflexivity|lit|]. apply sub_lexed; [|exact H].
  apply Forall_forall. intros e _. apply exp_lexed.
Qed.

Lemma top_lexed : forall tab t ind d, spelled_top t = true -> lxs delim d (ttext tab ind t) (ttoks t) d.
Proof. intros tab [e|l] ind d H; [now apply exp_delim|]. cbn in H. andb. now apply list_lexed. Qed.

Lemma top_headed : forall tab t ind, spelled_top t = true -> headed hd (ttext tab ind t).
Proof.
  intros tab [e|l] ind H; [now apply exp_headed|]. cbn in H. andb. destruct l as [|a [|b l]]; try discriminate.
  cbn in H0. andb. cbn [ttext map]. rewrite join_cons. apply headed_app. now apply exp_headed.
Qed.

Lemma stmt_headed : forall tab s ind, spelled_stmt s = true -> headed hd (stext tab ind s).
Proof.
  intros tab s ind H. destruct s; cbn [spelled_stmt] in H; andb; cbn [stext]; unfold cat; cbn [fold_right];
    try hdd; try (apply headed_app); try (now apply exp_headed); try (now apply top_headed).
  apply smem_true_In in H. cbn in H. destruct H as [<-|[<-|[<-|[]]]]; hdd.
Qed.

Lemma aug_lexed : forall op d, smem op (map snd binary_symbols) = true ->
  lxs any d (String " " (String.append op "= ")) [TSym (String.append op "=")] d.
Proof.
  intros op d H. apply smem_true_In in H. cbn in H. repeat (destruct H as [<-|H]; [cbn [String.append]; lit|]). destruct H.
Qed.

Ltac prep := unfold cat; cbn [fold_right].
Ltac tk1 := match goal with |- lxs _ _ _ (?t :: ?l) _ => change (t :: l) with ([t] ++ l) end.

Lemma stmt_lexed : forall tab s ind, spelled_stmt s = true -> lxs eol 0 (stext tab ind s) (stoks tab ind s) 0.
Proof.
  intros tab s. induction s as [e|t e|t op e|t ty e|e|e m|e|e|w|e body orelse IHb IHo|t it body IHb] using vstmt_ind';
    intros ind Sp; cbn [spelled_stmt] in Sp; andb; cbn [stext stoks].
  - now apply eol_lxs, exp_delim.
  - prep. eapply lxs_word; [now apply top_lexed| |hdd]. tk1. eapply lxs_lit; [lit|]. rewrite append_nil_s. now apply eol_lxs, top_lexed.
  - prep. eapply lxs_word; [now apply exp_delim| |hdd]. tk1.
    match goal with |- lxs _ _ ?s _ _ => replace s with (String.append (String " " (String.append op "= ")) (vtext tab ind e))
      by (cbn [String.append]; rewrite append_nil_s, append_assoc; reflexivity) end.
    eapply lxs_lit; [now apply aug_lexed|now apply eol_lxs, exp_delim].
  - prep. eapply lxs_word; [now apply exp_delim| |hdd]. tk1. eapply lxs_lit; [lit|]. rewrite append_nil_s.
    destruct e as [e|]; cbn [otext otoks o_all] in *.
    + eapply lxs_word; [now apply exp_delim| |hdd]. tk1. eapply lxs_lit; [lit|]. now apply eol_lxs, exp_delim.
    + rewrite append_nil_s, app_nil_r. now apply eol_lxs, exp_delim.
  - destruct e as [e|]; cbn [otext otoks o_all] in *.
    + tk1. change (String.append "return" (String.append " " (ttext tab ind e))) with (String.append "return " (ttext tab ind e)).
      eapply lxs_lit; [lit|]. now apply eol_lxs, top_lexed.
    + apply eol_lxs, delim_tight. now apply ident_lexed.
  - prep. tk1. eapply lxs_lit; [lit|]. rewrite append_nil_s. destruct m as [m|]; cbn [otext otoks o_all] in *.
    + eapply lxs_word; [now apply exp_delim| |hdd]. tk1. eapply lxs_lit; [lit|]. now apply eol_lxs, exp_delim.
    + rewrite append_nil_s, app_nil_r. now apply eol_lxs, exp_delim.
  - tk1. eapply lxs_lit; [lit|]. now apply eol_lxs, exp_delim.
  - tk1. eapply lxs_lit; [lit|]. now apply eol_lxs, exp_delim.
  - apply eol_lxs, delim_tight, ident_lexed. apply smem_true_In in Sp. cbn in Sp. destruct Sp as [<-|[<-|[<-|[]]]]; reflexivity.
  - assert (Bl : forall l, Forall (fun s => forall ind, spelled_stmt s = true -> lxs eol 0 (stext tab ind s) (stoks tab ind s) 0) l ->
                 forallb spelled_stmt l = true ->
                 lxs eol 0 (cat (map (fun s => String.append newline (String.append (spaces (depth tab (ind + 1))) (stext tab (ind + 1) s))) l))
                     (flat_map (fun s => TLine (depth tab (ind + 1)) :: stoks tab (ind + 1) s) l) 0).
    { intros l F Hl. rewrite forallb_forall in Hl. apply (lines_lexed (depth tab (ind + 1)) (stext tab (ind + 1)) (stoks tab (ind + 1))). rewrite Forall_forall in *.
      intros s Hs. split; [now apply hd_hdl, stmt_headed, Hl|now apply F, Hl]. }
    prep. tk1. eapply lxs_lit; [lit|]. eapply lxs_word; [now apply exp_delim| |hdd]. tk1. eapply lxs_lit; [lit|].
    rewrite append_nil_s. rewrite <- (append_assoc newline), nl_join by (destruct body; [discriminate|congruence]).
    destruct orelse as [|o orelse].
    + rewrite append_nil_s, app_nil_r. now apply Bl.
    + eapply lxs_cat; [now apply Bl| |left; unfold newline; hdd].
      change (TLine (depth tab ind) :: TWord "else" :: TSym ":" :: ?l) with ((TLine (depth tab ind) :: [TWord "else"; TSym ":"]) ++ l).
      unfold cat. cbn [fold_right]. rewrite !append_nil_s.
      match goal with |- context [sjoin newline (map ?g (o :: orelse))] => set (gg := g); set (l := o :: orelse) in * end.
      replace (String.append newline (String.append (margin tab ind) (String.append "else:" (String.append newline (sjoin newline (map gg l))))))
        with (String.append (String.append newline (String.append (spaces (depth tab ind)) "else:")) (String.append newline (sjoin newline (map gg l))))
        by (rewrite !append_assoc; reflexivity).
      rewrite nl_join by discriminate. eapply lxs_cat; [| now apply Bl|].
      * apply line_lexed; [hdd|]. apply any_lxs. lit.
      * left. unfold l, newline. cbn [map]. change (cat (?x :: ?y)) with (String.append x (cat y)). hdd.
  - prep. tk1. eapply lxs_lit; [lit|]. eapply lxs_word; [now apply exp_delim| |hdd]. tk1. eapply lxs_lit; [lit|].
    eapply lxs_word; [now apply exp_delim| |hdd]. tk1. eapply lxs_lit; [lit|]. rewrite append_nil_s.
    match goal with |- context [map ?g body] =>
      replace (map g body) with (map (fun s => String.append (String.append (spaces (depth tab (ind + 1))) (stext tab (ind + 1) s)) newline) body)
        by (apply map_ext; intros s; cbn [fold_right]; rewrite append_nil_s, append_assoc; reflexivity) end.
    change (fold_right String.append "" ?l) with (cat l). rewrite nl_each.
    rewrite <- (app_nil_r (flat_map _ body)). eapply (lxs_cat eol eol); [|exact newline_end|left; unfold newline; hdd].
    apply (lines_lexed (depth tab (ind + 1)) (stext tab (ind + 1)) (stoks tab (ind + 1))).
    match goal with K : forallb spelled_stmt body = true |- _ => rewrite forallb_forall in K; rename K into Hl end. rewrite Forall_forall in *.
    intros s Hs. split; [now apply hd_hdl, stmt_headed, Hl|now apply IHb, Hl].
Qed.

(** ** Reading statements *)

Lemma expr_ok : forall e, spelled e = true -> exists N, forall f, N <= f -> forall rest, stops 0 rest -> expr f 0 (vtoks e ++ rest) = Some (e, rest).
Proof.
  intros e Sp. destruct (proj1 (exp_sound e Sp)) as (N & H). exists N. intros f F rest St. apply H; [exact F|lia|exact St].
Qed.

Lemma commas_ok : forall p l rest,
  (forall e r, In e l -> p (vtoks e ++ TSym "," :: r) = Some (e, TSym "," :: r)) ->
  (forall e, In e l -> p (vtoks e ++ rest) = Some (e, rest)) -> sym "," rest = None ->
  forall g, List.length l < g -> commas g p (flat_map (fun e => TSym "," :: vtoks e) l ++ rest) = Some (l, rest).
Proof.
  intros p l rest H1 H2 W. induction l as [|x l IH]; intros g G; (destruct g as [|g]; [lia|]).
  - cbn [flat_map app commas]. now rewrite W.
  - cbn [flat_map app commas sym]. rewrite String.eqb_refl. rewrite <- app_assoc.
    assert (E : p (vtoks x ++ (flat_map (fun e => TSym "," :: vtoks e) l ++ rest)) = Some (x, flat_map (fun e => TSym "," :: vtoks e) l ++ rest)).
    { destruct l as [|y l]; [apply H2; now left|]. cbn [flat_map app]. apply H1. now left. }
    rewrite E, IH; [reflexivity| | |cbn in G; lia].
    + intros y r Hy. apply H1. now right.
    + intros y Hy. apply H2. now right.
Qed.

Lemma flat_map_map : forall {A B C} (f : A -> B) (g : B -> list C) l, flat_map g (map f l) = flat_map (fun a => g (f a)) l.
Proof. induction l as [|a l IH]; [reflexivity|]. cbn. now rewrite IH. Qed.

Lemma top_ok : forall t, spelled_top t = true ->
  exists N, forall f, N <= f -> forall rest, stops 0 rest -> sym "," rest = None -> top f (ttoks t ++ rest) = Some (t, rest).
Proof.
  intros [e|l] Sp; cbn [spelled_top] in Sp.
  - destruct (expr_ok e Sp) as (N & H). exists (S N). intros f F rest St C. unfold top. cbn [ttoks]. rewrite H; [|lia|exact St].
    destruct f as [|f]; [lia|]. cbn [commas]. now rewrite C.
  - andb. destruct (common l) as (N & K).
    { apply Forall_forall. intros e He. apply exp_sound. match goal with Q : forallb spelled l = true |- _ => rewrite forallb_forall in Q; now apply Q end. }
    exists (N + S (List.length l)). intros f F rest St C. destruct l as [|a [|b l]]; try discriminate.
    cbn [ttoks map]. rewrite tjoin_flat, <- app_assoc. change (vtoks b :: map vtoks l) with (map vtoks (b :: l)). rewrite flat_map_map.
    unfold top. rewrite K; [|now left|lia|lia|exact I]. rewrite commas_ok; [reflexivity| | |exact C|cbn [List.length] in *; lia].
    + intros e r He. apply K; [now right|lia|lia|exact I].
    + intros e He. apply K; [now right|lia|lia|exact St].
Qed.

Lemma top_opening : forall t, spelled_top t = true -> opening 0 (ttoks t).
Proof.
  intros [e|l] H; cbn [spelled_top] in H.
  - apply opening_mono with (plevel e); [now apply exp_opening|lia].
  - andb. destruct l as [|a [|b l]]; try discriminate. cbn in H0. andb. cbn [ttoks map tjoin]. apply opening_app.
    apply opening_mono with (plevel a); [now apply exp_opening|lia].
Qed.

Lemma exp_open0 : forall e, spelled e = true -> opening 0 (vtoks e).
Proof. intros e H. apply opening_mono with (plevel e); [now apply exp_opening|lia]. Qed.

Lemma free_word : forall w x, smem w keywords = false \/ w = "not" -> In x keywords -> x <> "not" -> (w =?s x) = false.
Proof.
  intros w x [H| ->] Hx N.
  - destruct (w =?s x) eqn:E; [|reflexivity]. seqb. apply smem_true_In in Hx. congruence.
  - apply String.eqb_neq. congruence.
Qed.

Lemma open_word : forall l ts x, opening l ts -> In x keywords -> x <> "not" -> word x ts = None.
Proof.
  intros l [|[] ts] x H Hx N; try reflexivity. cbn [word]. cbn in H. rewrite (free_word s x); [reflexivity|tauto|exact Hx|exact N].
Qed.

Ltac kw := first [cbn; tauto|discriminate].

Lemma open_plain : forall l ts f k, opening l ts -> stmt (S f) k ts = plain_stmt f ts.
Proof.
  intros l ts f k H. cbn [stmt]. rewrite (open_word l ts "if" H), (open_word l ts "for" H) by kw.
  destruct ts as [|[] ts]; try reflexivity. cbn [simple_stmt]. cbn in H.
  assert (F : smem s keywords = false \/ s = "not") by tauto.
  cbn [smem simple_words]. rewrite !(free_word s _ F) by kw. reflexivity.
Qed.

Definition after (k : nat) (rest : list tok) : Prop :=
  match rest with [] => True | TLine j :: r => j <= k /\ (j = k -> word "else" r = None) | _ => False end.
Definition before (k : nat) (rest : list tok) : Prop :=
  match rest with [] => True | TLine j :: _ => j < k | _ => False end.

Lemma after_end : forall k rest, after k rest -> at_end rest = true /\ stops 0 rest /\ (forall s, sym s rest = None).
Proof. intros k [|[] r] H; cbn in *; try contradiction; auto. Qed.
Lemma before_after : forall k rest, before k rest -> after k rest.
Proof. intros k [|[] r] H; cbn in *; try contradiction; auto. split; lia. Qed.

Lemma more_ok : forall {A} (line : parser A) toks k l rest,
  (forall a r, In a l -> after k r -> line (toks a ++ r) = Some (a, r)) ->
  (forall a r, In a l -> word "else" (toks a ++ r) = None) -> before k rest ->
  forall g, List.length l < g -> more_lines g k line (flat_map (fun a => TLine k :: toks a) l ++ rest) = Some (l, rest).
Proof.
  intros A line toks k l rest H1 H2 B. induction l as [|a l IH]; intros g G; (destruct g as [|g]; [lia|]).
  - cbn [flat_map app more_lines]. destruct rest as [|[] r]; try reflexivity. cbn in B.
    rewrite (proj2 (Nat.eqb_neq k0 k)) by lia. reflexivity.
  - cbn [flat_map app more_lines]. rewrite Nat.eqb_refl, <- app_assoc.
    assert (Af : after k (flat_map (fun a => TLine k :: toks a) l ++ rest)).
    { destruct l as [|b l]; [exact (before_after _ _ B)|]. cbn [flat_map app after]. split; [lia|]. intros _. rewrite <- app_assoc. apply H2. right. now left. }
    rewrite H1; [|now left|exact Af]. rewrite (proj1 (after_end _ _ Af)). rewrite IH; [reflexivity| | |cbn in G; lia].
    + intros x r Hx. apply H1. now right.
    + intros x r Hx. apply H2. now right.
Qed.

Lemma block_ok : forall {A} (line : nat -> parser A) toks j k l rest, l <> [] -> j < k ->
  (forall a r, In a l -> after k r -> line k (toks a ++ r) = Some (a, r)) ->
  (forall a r, In a l -> word "else" (toks a ++ r) = None) -> before k rest ->
  forall g, List.length l < g -> block g j line (flat_map (fun a => TLine k :: toks a) l ++ rest) = Some (l, rest).
Proof.
  intros A line toks j k l rest Ne J H1 H2 B g G. pose proof (more_ok (line k) toks k l rest H1 H2 B g G) as M.
  destruct l as [|a l]; [congruence|]. cbn [flat_map app block] in *. rewrite (proj2 (Nat.ltb_lt j k) J). exact M.
Qed.

Lemma stmt_else : forall tab s ind r, spelled_stmt s = true -> word "else" (stoks tab ind s ++ r) = None.
Proof.
  intros tab s ind r H. destruct s; cbn [spelled_stmt] in H; andb; cbn [stoks]; try reflexivity;
    rewrite <- ?app_assoc;
    try (apply open_word with 0; [apply opening_app; first [now apply exp_open0|now apply top_opening]|kw|discriminate]).
  apply smem_true_In in H. cbn in H. destruct H as [<-|[<-|[<-|[]]]]; reflexivity.
Qed.

Definition stmt_good (tab : N) (s : vstmt) : Prop :=
  forall ind, exists N, forall f, N <= f -> forall rest, after (depth tab ind) rest ->
  stmt f (depth tab ind) (stoks tab ind s ++ rest) = Some (s, rest).

Lemma common_stmt : forall tab ind l, Forall (stmt_good tab) l ->
  exists N, forall s, In s l -> forall f, N <= f -> forall rest, after (depth tab ind) rest ->
  stmt f (depth tab ind) (stoks tab ind s ++ rest) = Some (s, rest).
Proof.
  induction 1 as [|e l H F (N2 & IH)]; [exists 0; intros e []|]. destruct (H ind) as (N & Hn).
  exists (N + N2). intros x [<-|Hx] f Hf; [apply Hn; lia|apply IH; [exact Hx|lia]].
Qed.

Lemma depth_lt : forall tab ind, (0 < tab)%N -> depth tab ind < depth tab (ind + 1).
Proof. intros tab ind H. unfold depth. rewrite N.mul_add_distr_r. lia. Qed.

Lemma optional_ok : forall {A} s (p : parser A) (o : option A) (toks : A -> list tok) rest,
  (forall a, o = Some a -> p (toks a ++ rest) = Some (a, rest)) -> sym s rest = None ->
  optional s p (otoks o (fun a => TSym s :: toks a) ++ rest) = Some (o, rest).
Proof.
  intros A s p [a|] toks rest H W; unfold optional; cbn [otoks app sym].
  - rewrite String.eqb_refl, H; reflexivity.
  - now rewrite W.
Qed.

Lemma o_expr : forall o, o_all spelled o = true -> exists N, forall f, N <= f -> forall rest a, o = Some a -> stops 0 rest ->
  expr f 0 (vtoks a ++ rest) = Some (a, rest).
Proof.
  intros [a|] H; [|exists 0; discriminate]. destruct (expr_ok a H) as (N & K). exists N. intros f F rest b [= <-] St. now apply K.
Qed.

Lemma aug_table : forall op, smem op (map snd binary_symbols) = true ->
  (String.append op "=" =?s "=") = false /\ (String.append op "=" =?s ":") = false /\ assoc (String.append op "=") augmented = Some op /\
  rank (TSym (String.append op "=")) = None.
Proof. intros op H. apply smem_true_In in H. cbn in H. repeat (destruct H as [<-|H]; [repeat split|]). destruct H. Qed.

Lemma aug_comma : forall op r, smem op (map snd binary_symbols) = true -> sym "," (TSym (String.append op "=") :: r) = None.
Proof. intros op r H. apply smem_true_In in H. cbn in H. repeat (destruct H as [<-|H]; [reflexivity|]). destruct H. Qed.

Lemma stmt_sound : forall tab s, (0 < tab)%N -> spelled_stmt s = true -> stmt_good tab s.
Proof.
  intros tab s Tab. induction s as [e|t e|t op e|t ty e|e|e m|e|e|w|e body orelse IHb IHo|t it body IHb] using vstmt_ind';
    intros Sp ind; cbn [spelled_stmt] in Sp; andb.
  - destruct (top_ok (One e) Sp) as (N & K). exists (S N). intros [|f] F rest A; [lia|]. destruct (after_end _ _ A) as (A1 & A2 & A3).
    cbn [stoks]. rewrite (open_plain 0) by now apply opening_app, exp_open0. unfold plain_stmt.
    change (vtoks e) with (ttoks (One e)). rewrite K; [|lia|exact A2|apply A3]. destruct rest as [|[] r]; try contradiction; reflexivity.
  - destruct (top_ok t ltac:(assumption)) as (N & K). destruct (top_ok e ltac:(assumption)) as (N2 & K2).
    exists (S (N + N2)). intros [|f] F rest A; [lia|]. destruct (after_end _ _ A) as (A1 & A2 & A3).
    cbn [stoks]. rewrite (open_plain 0) by now do 2 apply opening_app; apply top_opening. rewrite <- app_assoc. cbn [app]. unfold plain_stmt.
    rewrite K; [|lia|exact I|reflexivity]. cbn [String.eqb Ascii.eqb Bool.eqb]. rewrite K2; [reflexivity|lia|exact A2|apply A3].
  - destruct (top_ok (One t) ltac:(assumption)) as (N & K). destruct (expr_ok e ltac:(assumption)) as (N2 & K2).
    match goal with Q : smem op _ = true |- _ => destruct (aug_table op Q) as (Q1 & Q2 & Q3 & Q4); pose proof (fun r => aug_comma op r Q) as Q5 end.
    exists (S (N + N2)). intros [|f] F rest A; [lia|]. destruct (after_end _ _ A) as (A1 & A2 & A3).
    cbn [stoks]. rewrite (open_plain 0) by now do 2 apply opening_app; apply exp_open0. rewrite <- app_assoc. cbn [app]. unfold plain_stmt.
    change (vtoks t) with (ttoks (One t)). rewrite K; [|lia|cbn [stops]; rewrite Q4; exact I|apply Q5].
    rewrite Q1, Q2, Q3, K2; [reflexivity|lia|exact A2].
  - destruct (top_ok (One t) ltac:(assumption)) as (N & K). destruct (expr_ok ty ltac:(assumption)) as (N2 & K2).
    destruct (o_expr e ltac:(assumption)) as (N3 & K3).
    exists (S (N + N2 + N3)). intros [|f] F rest A; [lia|]. destruct (after_end _ _ A) as (A1 & A2 & A3).
    cbn [stoks]. rewrite (open_plain 0) by now do 2 apply opening_app; apply exp_open0. rewrite <- app_assoc. cbn [app]. unfold plain_stmt.
    change (vtoks t) with (ttoks (One t)). rewrite K; [|lia|exact I|reflexivity]. cbn [String.eqb Ascii.eqb Bool.eqb].
    rewrite <- app_assoc. rewrite K2; [|lia|destruct e; [exact I|exact A2]].
    rewrite optional_ok; [reflexivity| |apply A3]. intros a Ha. apply K3; [lia|exact Ha|exact A2].
  - destruct e as [e|]; cbn [o_all otoks] in *.
    + destruct (top_ok e ltac:(assumption)) as (N & K). exists (S N). intros [|f] F rest A; [lia|]. destruct (after_end _ _ A) as (A1 & A2 & A3).
      cbn [stoks otoks app stmt word simple_stmt]. cbn [String.eqb Ascii.eqb Bool.eqb smem simple_words].
      replace (at_end (ttoks e ++ rest)) with false.
      * rewrite K; [reflexivity|lia|exact A2|apply A3].
      * pose proof (top_opening e ltac:(assumption)) as O. destruct (ttoks e) as [|[] q]; try reflexivity; destruct O.
    + exists 1. intros [|f] F rest A; [lia|]. destruct (after_end _ _ A) as (A1 & A2 & A3).
      cbn [stoks otoks app stmt word simple_stmt]. cbn [String.eqb Ascii.eqb Bool.eqb smem simple_words]. now rewrite A1.
  - destruct (expr_ok e ltac:(assumption)) as (N & K). destruct (o_expr m ltac:(assumption)) as (N2 & K2).
    exists (S (N + N2)). intros [|f] F rest A; [lia|]. destruct (after_end _ _ A) as (A1 & A2 & A3).
    cbn [stoks app stmt word simple_stmt]. cbn [String.eqb Ascii.eqb Bool.eqb smem simple_words]. rewrite <- app_assoc.
    rewrite K; [|lia|destruct m; [exact I|exact A2]]. rewrite optional_ok; [reflexivity| |apply A3]. intros a Ha. apply K2; [lia|exact Ha|exact A2].
  - destruct (expr_ok e Sp) as (N & K). exists (S N). intros [|f] F rest A; [lia|]. destruct (after_end _ _ A) as (A1 & A2 & A3).
    cbn [stoks app stmt word simple_stmt]. cbn [String.eqb Ascii.eqb Bool.eqb smem simple_words]. rewrite K; [reflexivity|lia|exact A2].
  - destruct (expr_ok e Sp) as (N & K). exists (S N). intros [|f] F rest A; [lia|]. destruct (after_end _ _ A) as (A1 & A2 & A3).
    cbn [stoks app stmt word simple_stmt]. cbn [String.eqb Ascii.eqb Bool.eqb smem simple_words]. rewrite K; [reflexivity|lia|exact A2].
  - exists 1. intros [|f] F rest A; [lia|]. cbn [stoks app]. apply smem_true_In in Sp. cbn in Sp.
    destruct Sp as [<-|[<-|[<-|[]]]]; reflexivity.
  - destruct (expr_ok e ltac:(assumption)) as (N & K).
    assert (Sb : forall s, In s body -> spelled_stmt s = true) by now apply forallb_forall.
    assert (So : forall s, In s orelse -> spelled_stmt s = true) by now apply forallb_forall.
    destruct (common_stmt tab (ind + 1) body) as (Nb & Kb). { rewrite Forall_forall in *. auto. }
    destruct (common_stmt tab (ind + 1) orelse) as (No & Ko). { rewrite Forall_forall in *. auto. }
    pose proof (depth_lt tab ind Tab) as D.
    exists (S (N + Nb + No + List.length body + List.length orelse + 1)). intros [|f] F rest A; [lia|]. destruct (after_end _ _ A) as (A1 & A2 & A3).
    cbn [stoks app stmt word]. cbn [String.eqb Ascii.eqb Bool.eqb]. rewrite <- app_assoc. rewrite K; [|lia|exact I].
    cbn [app sym]. cbn [String.eqb Ascii.eqb Bool.eqb]. rewrite <- app_assoc.
    rewrite (block_ok (stmt f) (stoks tab (ind + 1)) (depth tab ind) (depth tab (ind + 1)) body).
    + destruct orelse as [|o orelse].
      * cbn [app]. replace (else_of (depth tab ind) rest) with (@None (list tok)); [reflexivity|].
        destruct rest as [|[] r]; try reflexivity. cbn in A. cbn [else_of]. destruct (Nat.eqb k (depth tab ind)) eqn:E; [|reflexivity].
        apply Nat.eqb_eq in E. now rewrite (proj2 A E).
      * cbn [app else_of word sym]. rewrite Nat.eqb_refl. cbn [String.eqb Ascii.eqb Bool.eqb]. cbn [sym]. cbn [String.eqb Ascii.eqb Bool.eqb].
        rewrite (block_ok (stmt f) (stoks tab (ind + 1)) (depth tab ind) (depth tab (ind + 1)) (o :: orelse)); [reflexivity|discriminate|exact D| | | |cbn [List.length] in *; lia].
        -- intros s r Hs Ar. apply Ko; [exact Hs|lia|exact Ar].
        -- intros s r Hs. now apply stmt_else, So.
        -- destruct rest as [|[] r]; try contradiction; cbn in *; [exact I|lia].
    + destruct body; [discriminate|congruence].
    + exact D.
    + intros s r Hs Ar. apply Kb; [exact Hs|lia|exact Ar].
    + intros s r Hs. now apply stmt_else, Sb.
    + destruct orelse as [|o orelse]; [|exact D]. cbn [app]. destruct rest as [|[] r]; try contradiction; cbn in *; [exact I|lia].
    + lia.
  - destruct (expr_ok it ltac:(assumption)) as (N & K).
    destruct (proj1 (exp_sound t ltac:(assumption))) as (N2 & K2).
    assert (L : plevel t = 12) by (apply level_binding; now apply Nat.leb_le). rewrite L in K2.
    assert (Sb : forall s, In s body -> spelled_stmt s = true) by now apply forallb_forall.
    destruct (common_stmt tab (ind + 1) body) as (Nb & Kb). { rewrite Forall_forall in *. auto. }
    pose proof (depth_lt tab ind Tab) as D.
    exists (S (N + N2 + Nb + List.length body + 1)). intros [|f] F rest A; [lia|]. destruct (after_end _ _ A) as (A1 & A2 & A3).
    cbn [stoks app stmt word]. cbn [String.eqb Ascii.eqb Bool.eqb]. rewrite <- app_assoc. rewrite K2; [|lia|lia|cbn; lia].
    cbn [app word]. cbn [String.eqb Ascii.eqb Bool.eqb]. rewrite <- app_assoc. rewrite K; [|lia|exact I].
    cbn [app sym]. cbn [String.eqb Ascii.eqb Bool.eqb].
    rewrite (block_ok (stmt f) (stoks tab (ind + 1)) (depth tab ind) (depth tab (ind + 1)) body); [reflexivity| |exact D| | | |lia].
    + destruct body; [discriminate|congruence].
    + intros s r Hs Ar. apply Kb; [exact Hs|lia|exact Ar].
    + intros s r Hs. now apply stmt_else, Sb.
    + destruct rest as [|[] r]; try contradiction; cbn in *; [exact I|lia].
Qed.
