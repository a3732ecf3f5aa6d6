(** The text of inline assembly is read as that assembly. *)
From Coq Require Import String Ascii List NArith ZArith Bool Lia.
From Verif Require Import Base Json SpecLiteral SpecVyText SpecSolText SpecSolRead SpecYul LitFacts PathFacts SolReadLex SolTextClaims
  SolReadToks SolReadToks2 SolReadParse SolReadVar SolReadStmt YulText SpecYulRead.
Import ListNotations.
Open Scope string_scope.
Open Scope list_scope.

(** ** Tokens *)

Fixpoint yetoks (e : yexp) : list token :=
  match e with
  | YName x => path_toks x
  | YLit s => [if smem s ["true"; "false"] then KWord s else KNum s]
  | YStr s => [KText s]
  | YHex s => [KHex s]
  | YCall f args => path_toks f ++ KSym "(" :: commas (map yetoks args) ++ [KSym ")"]
  end.

Definition names_toks (xs : list string) : list token := commas (map path_toks xs).
Definition becomes_toks (e : yexp) : list token := KSym ":" :: KSym "=" :: yetoks e.

Fixpoint ytoks (s : ystmt) : list token :=
  let block l := KSym "{" :: flat_map ytoks l ++ [KSym "}"] in
  match s with
  | YExp e => yetoks e
  | YLet xs e => KWord "let" :: names_toks xs ++ otoks becomes_toks e
  | YSet xs e => names_toks xs ++ becomes_toks e
  | YBlock l => block l
  | YIf e l => KWord "if" :: yetoks e ++ block l
  | YSwitch e cs => KWord "switch" :: yetoks e ++
      flat_map (fun c => match fst c with Some e => KWord "case" :: yetoks e | None => [KWord "default"] end ++ block (snd c)) cs
  | YFor pre e post l => KWord "for" :: block pre ++ yetoks e ++ block post ++ block l
  | YFun f ps rs l => KWord "function" :: path_toks f ++ KSym "(" :: commas (map path_toks ps) ++ KSym ")" ::
      match rs with [] => [] | _ => KSym "->" :: names_toks rs end ++ block l
  | YWord w => [KWord w]
  end.

Definition btoks (l : list ystmt) : list token := KSym "{" :: flat_map ytoks l ++ [KSym "}"].

Lemma spelled_parts : forall x, yname_spelled x = true -> exists p l, parts x = p :: l /\ wordy p = true /\ forallb wordy l = true /\
  smem p yul_words = false /\ path_toks x = KWord p :: flat_map (fun q => [KSym "."; KWord q]) l.
Proof.
  intros x H. unfold yname_spelled in H. unfold path_toks. pose proof (parts_nonempty x) as N. destruct (parts x) as [|p l]; [congruence|].
  cbn [forallb List.hd] in H. andb. apply negb_true_iff in H0. exists p, l. split; [reflexivity|]. split; [assumption|]. split; [assumption|]. split; [assumption|].
  clear. revert p. induction l as [|q l IH]; intros p; [reflexivity|]. cbn [flat_map app]. rewrite <- (IH q). reflexivity.
Qed.

Lemma yname_lexed : forall x, yname_spelled x = true -> lxs tight x (path_toks x).
Proof.
  intros x H. unfold yname_spelled in H. andb. clear H0. unfold path_toks. rewrite (parts_join x) at 1. induction (parts x) as [|p l IH]; [apply lxs_nil|].
  cbn [forallb] in H. andb. assert (W : lxs tight p [KWord p]) by (apply wordy_lexed; assumption).
  destruct l as [|q l]; [exact W|]. rewrite join_cons.
  change (tjoin [KSym "."] (map (fun p => [KWord p]) (p :: q :: l))) with ([KWord p] ++ ([KSym "."] ++ tjoin [KSym "."] (map (fun p => [KWord p]) (q :: l)))).
  eapply (lxs_headed tight tight); [exact W| |hdd].
  specialize (IH ltac:(assumption)). cbn [forallb] in H0. andb. clear W H.
  intros rest R. cbn [String.append app]. eapply lx_tok; [|exact (IH rest R)].
  assert (Hq : headed letter (String.append (sjoin "." (q :: l)) rest)).
  { apply headed_app. unfold sjoin. destruct l; [|cbn [String.concat]; apply headed_app]; (apply wordy_headed; [auto|assumption]). }
  destruct Hq as (c & r & -> & Hc).
  assert (E : forall c, letter c = true -> negb (digit c) && negb (smem (String "." (String c "")) symbols2) = true) by chars.
  specialize (E c Hc). apply andb_true_iff in E. destruct E as (E1 & E2). apply negb_true_iff in E1, E2.
  unfold next. cbn [Ascii.eqb Bool.eqb orb andb]. change (letter ".") with false. change (digit ".") with false. cbn [orb andb]. rewrite E1.
  unfold symbol.
  change (take 4 (String "." (String c r))) with (String "." (String c (take 2 r))).
  change (take 3 (String "." (String c r))) with (String "." (String c (take 1 r))).
  change (take 2 (String "." (String c r))) with (String "." (String c "")).
  cbn [smem symbols4 symbols3 String.eqb Ascii.eqb Bool.eqb]. rewrite E2. reflexivity.
Qed.

(** ** Texts give their tokens *)

Lemma names_lexed : forall xs, forallb yname_spelled xs = true -> lxs tightn (sjoin ", " xs) (names_toks xs).
Proof.
  intros xs H. rewrite forallb_forall in H. unfold names_toks. rewrite <- (map_id xs) at 1. apply lxs_commas. intros x Hx. apply tight_lxs, yname_lexed. auto.
Qed.

Lemma yexp_lexed : forall e, yexp_spelled e = true -> lxs tightn (yetext e) (yetoks e).
Proof.
  induction e as [x|s|s|bs|f args IH] using yexp_ind'; intros H; cbn [yexp_spelled yetext yetoks] in *.
  - now apply tight_lxs, yname_lexed.
  - destruct (smem s ["true"; "false"]) eqn:E.
    + apply tight_lxs, wordy_lexed. now apply true_false_wordy.
    + rewrite orb_false_r in H. now apply numeral_lexed.
  - apply any_lxs, text_lexed.
  - apply any_lxs, hex_lexed.
  - andb. ocat. rewrite forallb_forall in H0. rewrite Forall_forall in IH.
    eapply (lxs_headed tight); [now apply yname_lexed| |hdd]. apply any_lxs.
    lopen; [lstep; ltightn; [apply (lxs_commas yetext yetoks); auto|lit]|lclose].
Qed.

Lemma join_none : forall {A} (g : A -> list token) l, tjoin [] (map g l) = flat_map g l.
Proof.
  intros A g l. induction l as [|a l IH]; [reflexivity|]. destruct l as [|b l]; [cbn; now rewrite app_nil_r|].
  change (tjoin [] (map g (a :: b :: l))) with (g a ++ [] ++ tjoin [] (map g (b :: l))). now rewrite IH.
Qed.

Lemma yblock_lexed : forall tab l, Forall (fun s => forall ind one, yul_spelled s = true -> lxs tightn (ytext tab ind one s) (ytoks s)) l ->
  forallb yul_spelled l = true -> forall ind one, lxs any (ytext tab ind one (YBlock l)) (btoks l).
Proof.
  intros tab l F H ind one. rewrite forallb_forall in H. rewrite Forall_forall in F.
  destruct l as [|s l]; [cbn [ytext]; unfold btoks; lit|]. set (m := s :: l) in *.
  assert (B : lxs any (cat ["{"; newline; sjoin newline (map (fun s => String.append (margin tab (ind + 1)) (ytext tab (ind + 1) one s)) m); newline; margin tab ind; "}"]) (btoks m)).
  { assert (L : lxs tightn (sjoin newline (map (fun s => String.append (margin tab (ind + 1)) (ytext tab (ind + 1) one s)) m)) (flat_map ytoks m)).
    { rewrite <- join_none. apply lxs_join; [hdd|apply newline_lexed|]. apply F2map. intros x Hx. change (ytoks x) with ([] ++ ytoks x). eapply lxs_lit; [apply margin_lexed|]. auto. }
    unfold btoks. ocat. lopen; [lstep; lstep; ltightn; [exact L|lstep; lstep; lit]|lclose]. }
  unfold m. destruct l as [|s2 l]; [|exact B]. destruct one; [|exact B]. subst m. cbn [ytext]. unfold btoks. ocat.
  lopen; [lstep; ltightn; [apply F; [now left|apply H; now left]|lit]|]. cbn [flat_map]. lclose.
Qed.

Theorem ystmt_lexed : forall tab s ind one, yul_spelled s = true -> lxs tightn (ytext tab ind one s) (ytoks s).
Proof.
  intros tab s. induction s using ystmt_ind'; intros ind one Sp; cbn [yul_spelled] in Sp; andb.
  - now apply yexp_lexed.
  - cbn [ytext ytoks]. ocat. destruct e as [e|]; cbn [otext otoks].
    + lopen; [lstep; ltightn; [now apply names_lexed|lstep; now apply yexp_lexed]|]. unfold becomes_toks. lclose.
    + rewrite append_nil_s. lopen; [lstep; now apply names_lexed|lclose].
  - cbn [ytext ytoks]. ocat. lopen; [ltightn; [now apply names_lexed|lstep; now apply yexp_lexed]|]. unfold becomes_toks. lclose.
  - apply any_lxs. now apply yblock_lexed.
  - change (ytext tab ind one (YIf e l)) with (cat ["if "; yetext e; " "; ytext tab ind one (YBlock l)]).
    change (ytoks (YIf e l)) with (KWord "if" :: yetoks e ++ btoks l). ocat. apply any_lxs.
    lopen; [lstep; ltightn; [now apply yexp_lexed|lstep; now apply yblock_lexed]|lclose].
  - change (ytext tab ind one (YSwitch e cs)) with (cat ["switch "; yetext e; " ";
      cat (map (fun c => cat [newline; margin tab (ind + 1); match fst c with Some e => cat ["case "; yetext e] | None => "default" end; " ";
                              ytext tab (ind + 1) one (YBlock (snd c))]) cs)]).
    change (ytoks (YSwitch e cs)) with (KWord "switch" :: yetoks e ++
      flat_map (fun c => match fst c with Some e => KWord "case" :: yetoks e | None => [KWord "default"] end ++ btoks (snd c)) cs).
    ocat. apply any_lxs. match goal with K : forallb _ cs = true |- _ => rewrite forallb_forall in K; rename K into Hs end. rewrite Forall_forall in H.
    lopen; [lstep; ltightn; [now apply yexp_lexed|lstep; apply lxs_cat]|lclose].
    intros c Hc. specialize (Hs c Hc). specialize (H c Hc). andb. ocat. destruct (fst c) as [x|]; cbn [maybe] in *.
    + lopen; [lstep; lstep; eapply (lxs_headed tightn); [ocat; lstep; now apply yexp_lexed|lstep; now apply yblock_lexed|hdd]|lclose].
    + lopen; [lstep; lstep; eapply (lxs_headed tight); [now apply (wordy_lexed "default")|lstep; now apply yblock_lexed|hdd]|lclose].
  - change (ytext tab ind one (YFor pre e post l)) with
      (cat ["for"; newline; margin tab (ind + 1); ytext tab (ind + 1) true (YBlock pre); newline; margin tab (ind + 1); yetext e;
            newline; margin tab (ind + 1); ytext tab (ind + 1) true (YBlock post); newline; margin tab ind; ytext tab ind one (YBlock l)]).
    change (ytoks (YFor pre e post l)) with (KWord "for" :: btoks pre ++ yetoks e ++ btoks post ++ btoks l). ocat. apply any_lxs.
    lopen; [eapply (lxs_headed tight); [now apply (wordy_lexed "for")| |hdd]; lstep; lstep; eapply lxs_lit; [now apply yblock_lexed|];
      lstep; lstep; ltightn; [now apply yexp_lexed|]; lstep; lstep; eapply lxs_lit; [now apply yblock_lexed|]; lstep; lstep; now apply yblock_lexed|lclose].
  - change (ytext tab ind one (YFun f ps rs l)) with
      (cat ["function "; f; "("; sjoin ", " ps; ") "; match rs with [] => "" | _ => cat ["-> "; sjoin ", " rs; " "] end; ytext tab ind one (YBlock l)]).
    change (ytoks (YFun f ps rs l)) with (KWord "function" :: path_toks f ++ KSym "(" :: names_toks ps ++ KSym ")" ::
      match rs with [] => [] | _ => KSym "->" :: names_toks rs end ++ btoks l). ocat. apply any_lxs.
    assert (R : lxs any match rs with [] => "" | _ => cat ["-> "; sjoin ", " rs; " "] end match rs with [] => [] | _ => KSym "->" :: names_toks rs end).
    { destruct rs as [|r rs]; [apply lxs_nil|]. ocat. lopen; [lstep; ltightn; [now apply (names_lexed (r :: rs))|lit]|lclose]. }
    lopen; [lstep; eapply (lxs_headed tight); [now apply yname_lexed| |hdd]; lstep; ltightn; [now apply names_lexed|]; lstep; eapply lxs_lit; [exact R|now apply yblock_lexed]|lclose].
  - cbn [ytext ytoks]. apply tight_lxs, wordy_lexed. revert Sp. apply all_wordy. reflexivity.
Qed.

(** ** Tokens are read *)

(** What may follow a name, an expression, a statement. *)
Definition after_name (rest : list token) : Prop := match rest with KSym s :: _ => s <> "." | _ => True end.
Definition after_exp (rest : list token) : Prop := match rest with KSym s :: _ => s <> "." /\ s <> "(" | _ => True end.
Definition after_names (rest : list token) : Prop := match rest with KSym s :: _ => s <> "." /\ s <> "," | _ => True end.
Definition after_stmt (rest : list token) : Prop :=
  match rest with
  | KSym s :: _ => s = "{" \/ s = "}"
  | KWord w :: _ => w <> "case" /\ w <> "default"
  | _ => True
  end.

Lemma stmt_exp : forall rest, after_stmt rest -> after_exp rest.
Proof. intros [|[] r] H; try exact Logic.I. cbn in *. destruct H as [-> | ->]; split; discriminate. Qed.
Lemma stmt_names : forall rest, after_stmt rest -> after_names rest.
Proof. intros [|[] r] H; try exact Logic.I. cbn in *. destruct H as [-> | ->]; split; discriminate. Qed.

Lemma dots_ok : forall l rest, after_name rest ->
  asm_dots (flat_map (fun q => [KSym "."; KWord q]) l ++ rest) = (fold_right (fun q s => String "." (String.append q s)) "" l, rest).
Proof.
  induction l as [|q l IH]; intros rest N.
  - cbn [flat_map app fold_right]. destruct rest as [|[] rest]; try reflexivity. cbn [asm_dots]. destruct rest as [|[] r]; try reflexivity.
    rewrite (proj2 (String.eqb_neq s ".")) by exact N. reflexivity.
  - cbn [flat_map app asm_dots]. cbn [String.eqb Ascii.eqb Bool.eqb andb]. rewrite IH; [reflexivity|exact N].
Qed.

Lemma name_ok : forall x rest, yname_spelled x = true -> after_name rest -> asm_name (path_toks x ++ rest) = Some (x, rest).
Proof.
  intros x rest H N. destruct (spelled_parts x H) as (p & l & E & Hp & Hl & K & ->). cbn [app asm_name]. rewrite K, (dots_ok l rest N).
  rewrite <- join_fold, <- E, <- parts_join. reflexivity.
Qed.

Lemma name_word : forall x rest, yname_spelled x = true -> exists w r, path_toks x ++ rest = KWord w :: r /\ smem w yul_words = false.
Proof. intros x rest H. destruct (spelled_parts x H) as (p & l & E & Hp & Hl & K & ->). eexists _, _. split; [reflexivity|exact K]. Qed.

Lemma names_ok : forall xs, xs <> [] -> forallb yname_spelled xs = true -> ok asm_names after_names (names_toks xs) xs.
Proof.
  intros xs Ne H. exists (S (List.length xs)). intros f F rest A. revert f F. induction xs as [|x xs IH]; [congruence|]. clear Ne. intros [|f] F; [lia|].
  cbn [forallb] in H. andb. destruct xs as [|y xs].
  - unfold names_toks, commas. cbn [map tjoin asm_names]. rewrite name_ok; [|assumption|destruct rest as [|[]]; try exact Logic.I; exact (proj1 A)].
    cbn [then_]. destruct rest as [|[] r]; try reflexivity. cbn [sym]. rewrite (proj2 (String.eqb_neq s ",")) by exact (proj2 A). reflexivity.
  - change (names_toks (x :: y :: xs)) with (path_toks x ++ [KSym ","] ++ names_toks (y :: xs)). rewrite <- !app_assoc. cbn [asm_names].
    rewrite name_ok; [|assumption|cbn; discriminate]. cbn [then_ app sym String.eqb Ascii.eqb Bool.eqb].
    rewrite IH; [reflexivity|discriminate|assumption|cbn [List.length] in *; lia].
Qed.

Lemma yexp_start : forall e r, yexp_spelled e = true -> sym ")" (yetoks e ++ r) = None.
Proof.
  intros [x|s|s|s|f args] r H; cbn [yetoks yexp_spelled] in *; try reflexivity.
  - destruct (name_word x r H) as (w & q & -> & _). reflexivity.
  - destruct (smem _ _); reflexivity.
  - andb. rewrite <- app_assoc. destruct (name_word f ((KSym "(" :: commas (map yetoks args) ++ [KSym ")"]) ++ r) H) as (w & q & -> & _). reflexivity.
Qed.

Lemma exp_fine : forall e, yexp_spelled e = true -> ok asm_expr after_exp (yetoks e) e.
Proof.
  assert (W : forall w f r, smem w yul_words = false -> asm_expr (S f) (KWord w :: r) = then_ (asm_name (KWord w :: r)) (fun x r =>
                 match sym "(" r with
                 | Some r => then_ (items f (asm_expr f) ")" r) (fun l r => Some (YCall x l, r))
                 | None => Some (YName x, r)
                 end)).
  { intros w f r H. cbn [asm_expr]. replace (smem w ["true"; "false"]) with false; [reflexivity|]. symmetry.
    destruct (smem w ["true"; "false"]) eqn:E; [|reflexivity]. apply smem_In in E. destruct E as [<-|[<-|[]]]; discriminate H. }
  induction e as [x|s|s|bs|f args IH] using yexp_ind'; intros H; cbn [yexp_spelled yetoks] in *.
  - exists 1. intros [|f] F rest A; [lia|]. destruct (name_word x rest H) as (w & r & E & K). rewrite E, (W _ _ _ K), <- E.
    rewrite name_ok; [|exact H|destruct rest as [|[]]; try exact Logic.I; exact (proj1 A)]. cbn [then_].
    destruct rest as [|[] rest]; try reflexivity. cbn [sym]. rewrite (proj2 (String.eqb_neq s "(")) by exact (proj2 A). reflexivity.
  - exists 1. intros [|f] F rest A; [lia|]. cbn [app asm_expr]. destruct (smem s ["true"; "false"]) eqn:E; [rewrite E|]; reflexivity.
  - exists 1. intros [|f] F rest A; [lia|]. reflexivity.
  - exists 1. intros [|f] F rest A; [lia|]. reflexivity.
  - andb. assert (C : exists N, forall a, In a args -> forall f, N <= f -> forall rest, after_exp rest -> asm_expr f (yetoks a ++ rest) = Some (a, rest)).
    { apply ok_all. rewrite Forall_forall in IH. rewrite forallb_forall in H0. auto. }
    destruct C as (N & C). exists (S (N + List.length args)). intros [|g] F rest A; [lia|]. rewrite <- app_assoc.
    destruct (name_word f ((KSym "(" :: commas (map yetoks args) ++ [KSym ")"]) ++ rest) H) as (w & r & E & K). rewrite E, (W _ _ _ K), <- E.
    rewrite name_ok; [|exact H|cbn; discriminate]. cbn [then_ app sym String.eqb Ascii.eqb Bool.eqb]. rewrite <- app_assoc. cbn [app].
    rewrite (items_ok (asm_expr g) ")" yetoks args); [reflexivity|discriminate| | |lia].
    + intros a q I. apply yexp_start. rewrite forallb_forall in H0. auto.
    + intros a q I (t & [-> | ->]); (apply C; [exact I|lia|split; discriminate]).
Qed.

(** How statements begin. *)
Lemma ystmt_begins : forall s r, yul_spelled s = true -> after_stmt (ytoks s ++ r) /\ sym "}" (ytoks s ++ r) = None.
Proof.
  assert (B : forall x r, yname_spelled x = true -> after_stmt (path_toks x ++ r) /\ sym "}" (path_toks x ++ r) = None).
  { intros x r H. destruct (name_word x r H) as (w & q & -> & K). split; [|reflexivity]. split; intros ->; discriminate K. }
  assert (C : forall xs r, some xs = true -> forallb yname_spelled xs = true -> after_stmt (names_toks xs ++ r) /\ sym "}" (names_toks xs ++ r) = None).
  { intros [|x [|y xs]] r Ne H; [discriminate| |]; cbn [forallb] in H; andb.
    - unfold names_toks, commas. cbn [map tjoin]. auto.
    - change (names_toks (x :: y :: xs)) with (path_toks x ++ [KSym ","] ++ names_toks (y :: xs)). rewrite <- app_assoc. auto. }
  intros s r H. destruct s; cbn [yul_spelled] in H; andb; try (split; [split; discriminate|reflexivity]).
  - destruct e; try discriminate. cbn [yexp_spelled ytoks yetoks] in *. andb. rewrite <- app_assoc. auto.
  - cbn [ytoks]. rewrite <- app_assoc. auto.
  - split; [left; reflexivity|reflexivity].
  - apply smem_In in H. destruct H as [<-|[<-|[<-|[]]]]; (split; [split; discriminate|reflexivity]).
Qed.

Definition yok (s : ystmt) : Prop := ok asm_stmt after_stmt (ytoks s) s.

Lemma block_fine : forall l, forallb yul_spelled l = true -> Forall yok l -> ok (fun f => asm_block f (asm_stmt f)) (fun _ => True) (btoks l) l.
Proof.
  intros l H So.
  assert (C : exists N, forall a, In a l -> forall f, N <= f -> forall rest, after_stmt rest -> asm_stmt f (ytoks a ++ rest) = Some (a, rest)).
  { apply ok_all. rewrite Forall_forall in So. exact So. }
  destruct C as (N & C). rewrite forallb_forall in H. exists (N + S (List.length l)). intros f F rest _. unfold asm_block, btoks. cbn [app sym String.eqb Ascii.eqb Bool.eqb after].
  rewrite <- app_assoc. cbn [app]. apply (until_ok (asm_stmt f) "}" ytoks after_stmt).
  - intros s r I. now apply ystmt_begins, H.
  - now right.
  - intros s r I. now apply ystmt_begins, H.
  - intros s r I A. apply C; [exact I|lia|exact A].
  - lia.
Qed.

Definition case_toks (c : option yexp * list ystmt) : list token :=
  match fst c with Some e => KWord "case" :: yetoks e | None => [KWord "default"] end ++ btoks (snd c).

Lemma cases_fine : forall cs, forallb (fun c => maybe yexp_spelled (fst c) && forallb yul_spelled (snd c)) cs = true -> Forall (fun c => Forall yok (snd c)) cs ->
  exists N, forall f g, N <= f -> List.length cs < g -> forall rest, after_stmt rest ->
    asm_cases g f (asm_block f (asm_stmt f)) (flat_map case_toks cs ++ rest) = Some (cs, rest).
Proof.
  intros cs H So. induction So as [|[o l] cs P So IH].
  - exists 0. intros f [|g] F G rest A; [cbn in G; lia|]. cbn [flat_map app asm_cases]. destruct rest as [|[w|?|?|?|?|?] r]; try reflexivity. cbn [word].
    destruct A as (A1 & A2). rewrite (proj2 (String.eqb_neq w "case") A1), (proj2 (String.eqb_neq w "default") A2). reflexivity.
  - cbn [forallb fst snd] in H. andb. destruct (IH ltac:(assumption)) as (N1 & I). cbn [snd] in P. destruct (block_fine l ltac:(assumption) P) as (N2 & B).
    assert (X : exists N3, forall f, N3 <= f -> forall e, o = Some e -> forall rest, after_exp rest -> asm_expr f (yetoks e ++ rest) = Some (e, rest)).
    { destruct o as [e|]; [|exists 0; discriminate]. destruct (exp_fine e ltac:(assumption)) as (N3 & X). exists N3. intros f F e' Q. injection Q as <-. apply X. exact F. }
    destruct X as (N3 & X). exists (N1 + N2 + N3). intros f [|g] F G rest A; [lia|]. cbn [List.length] in G. cbn [flat_map]. unfold case_toks at 1. cbn [fst snd]. rewrite <- !app_assoc.
    destruct o as [e|]; cbn [app asm_cases word String.eqb Ascii.eqb Bool.eqb].
    + rewrite (X f ltac:(lia) e eq_refl) by (unfold btoks; cbn; split; discriminate). cbn [then_]. rewrite B; [|lia|exact Logic.I]. cbn [then_].
      rewrite I; [reflexivity|lia|lia|exact A].
    + rewrite B; [|lia|exact Logic.I]. cbn [then_]. rewrite I; [reflexivity|lia|lia|exact A].
Qed.

Lemma stmt_at_name : forall f w r, smem w yul_words = false ->
  asm_stmt (S f) (KWord w :: r) = then_ (asm_name (KWord w :: r)) (fun _ after_name =>
    match sym "(" after_name with
    | Some _ => then_ (asm_expr f (KWord w :: r)) (fun e r => Some (YExp e, r))
    | None => then_ (asm_names f (KWord w :: r)) (fun xs r => after (becomes r) (fun r => then_ (asm_expr f r) (fun e r => Some (YSet xs e, r))))
    end).
Proof.
  intros f w r H.
  assert (E : forall x, In x yul_words -> (w =?s x) = false).
  { intros x I. apply String.eqb_neq. intros ->. apply smem_In in I. congruence. }
  cbn [asm_stmt]. rewrite (E "let"), (E "if"), (E "switch"), (E "for"), (E "function") by (cbn; tauto).
  replace (smem w ["break"; "continue"; "leave"]) with false; [reflexivity|]. symmetry.
  destruct (smem w ["break"; "continue"; "leave"]) eqn:Q; [|reflexivity]. apply smem_In in Q. destruct Q as [<-|[<-|[<-|[]]]]; discriminate H.
Qed.

Lemma first_name : forall x xs r, names_toks (x :: xs) ++ r = path_toks x ++ (match xs with [] => [] | _ => KSym "," :: names_toks xs end ++ r).
Proof.
  intros x [|y xs] r; [reflexivity|]. change (names_toks (x :: y :: xs)) with (path_toks x ++ [KSym ","] ++ names_toks (y :: xs)). rewrite <- !app_assoc. reflexivity.
Qed.

Lemma some_not : forall {A} (l : list A), some l = true -> l <> [].
Proof. intros A [|a l] H; [discriminate H|discriminate]. Qed.

Ltac unlet := cbn [app asm_stmt String.eqb Ascii.eqb Bool.eqb then_ after sym].

Theorem stmt_fine : forall s, yul_spelled s = true -> yok s.
Proof.
  assert (Each : forall l, Forall (fun s => yul_spelled s = true -> yok s) l -> forallb yul_spelled l = true -> Forall yok l).
  { intros l F H. rewrite forallb_forall in H. rewrite Forall_forall in *. auto. }
  induction s using ystmt_ind'; intros Sp; cbn [yul_spelled] in Sp; andb.
  - (* a call *) destruct e as [| | | |f args]; try discriminate. pose proof (exp_fine (YCall f args) ltac:(assumption)) as (N & X).
    exists (S N). intros [|g] F rest A; [lia|]. cbn [yexp_spelled] in *. andb. cbn [ytoks].
    specialize (X g ltac:(lia) rest (stmt_exp _ A)). cbn [yetoks] in *. rewrite <- app_assoc in *.
    match goal with K : yname_spelled f = true |- _ => destruct (name_word f ((KSym "(" :: commas (map yetoks args) ++ [KSym ")"]) ++ rest) K) as (w & r & E & Kw);
      pose proof (name_ok f ((KSym "(" :: commas (map yetoks args) ++ [KSym ")"]) ++ rest) K ltac:(cbn; discriminate)) as Nm end.
    rewrite E in X, Nm. rewrite E, (stmt_at_name g w r Kw), Nm. cbn [then_ app sym String.eqb Ascii.eqb Bool.eqb]. rewrite X. reflexivity.
  - (* let *) destruct (names_ok xs (some_not xs ltac:(assumption)) ltac:(assumption)) as (N1 & X). destruct e as [e|]; cbn [maybe] in *.
    + destruct (exp_fine e ltac:(assumption)) as (N2 & Y). exists (S (N1 + N2)). intros [|g] F rest A; [lia|]. cbn [ytoks otoks becomes_toks]. unlet. rewrite <- app_assoc.
      rewrite X; [|lia|cbn; split; discriminate]. cbn [then_]. unfold becomes, becomes_toks. cbn [app]. cbn [sym after String.eqb Ascii.eqb Bool.eqb]. rewrite Y; [reflexivity|lia|now apply stmt_exp].
    + exists (S N1). intros [|g] F rest A; [lia|]. cbn [ytoks otoks]. unlet. rewrite app_nil_r. rewrite X; [|lia|now apply stmt_names]. cbn [then_].
      unfold becomes. destruct rest as [|[] r]; try reflexivity. cbn in A. destruct A as [-> | ->]; reflexivity.
  - (* assignment *) destruct (names_ok xs (some_not xs ltac:(assumption)) ltac:(assumption)) as (N1 & X). destruct (exp_fine e ltac:(assumption)) as (N2 & Y).
    exists (S (N1 + N2)). intros [|g] F rest A; [lia|]. cbn [ytoks]. rewrite <- app_assoc.
    specialize (X g ltac:(lia) (becomes_toks e ++ rest) ltac:(cbn; split; discriminate)).
    destruct xs as [|x xs]; [discriminate|]. cbn [forallb] in *. andb.
    assert (Q : exists s q, match xs with [] => [] | _ => KSym "," :: names_toks xs end ++ becomes_toks e ++ rest = KSym s :: q /\ s <> "." /\ s <> "(").
    { destruct xs; eexists _, _; (split; [reflexivity|split; discriminate]). }
    destruct Q as (s & q & Q & Q1 & Q2).
    match goal with K : yname_spelled x = true |- _ => destruct (name_word x (KSym s :: q) K) as (w & r & E & Kw); pose proof (name_ok x (KSym s :: q) K Q1) as Nm end.
    rewrite first_name, Q, E in X. rewrite first_name, Q, E, (stmt_at_name g w r Kw). rewrite E in Nm. rewrite Nm. cbn [then_ sym].
    rewrite (proj2 (String.eqb_neq s "(") Q2). rewrite X. cbn [then_]. unfold becomes, becomes_toks. cbn [app]. cbn [sym after String.eqb Ascii.eqb Bool.eqb].
    rewrite Y; [reflexivity|lia|now apply stmt_exp].
  - (* block *) destruct (block_fine l ltac:(assumption) (Each l H Sp)) as (N & B). exists (S N). intros [|g] F rest A; [lia|]. specialize (B g ltac:(lia) rest Logic.I).
    change (ytoks (YBlock l)) with (btoks l). change (asm_stmt (S g) (btoks l ++ rest)) with (then_ (asm_block g (asm_stmt g) (btoks l ++ rest)) (fun l r => Some (YBlock l, r))).
    rewrite B. reflexivity.
  - (* if *) destruct (exp_fine e ltac:(assumption)) as (N1 & Y). destruct (block_fine l ltac:(assumption) (Each l H ltac:(assumption))) as (N2 & B).
    exists (S (N1 + N2)). intros [|g] F rest A; [lia|]. change (ytoks (YIf e l)) with (KWord "if" :: yetoks e ++ btoks l). unlet. rewrite <- app_assoc.
    rewrite Y; [|lia|cbn; split; discriminate]. cbn [then_]. rewrite B; [reflexivity|lia|exact Logic.I].
  - (* switch *) destruct (exp_fine e ltac:(assumption)) as (N1 & Y).
    destruct (cases_fine cs ltac:(assumption)) as (N2 & C).
    { match goal with K : forallb _ cs = true |- _ => rewrite forallb_forall in K; rename K into Hs end. rewrite Forall_forall in *. intros c Hc. specialize (Hs c Hc). andb. apply Each; auto. }
    exists (S (N1 + N2 + S (List.length cs))). intros [|g] F rest A; [lia|]. change (ytoks (YSwitch e cs)) with (KWord "switch" :: yetoks e ++ flat_map case_toks cs). unlet. rewrite <- app_assoc.
    rewrite Y; [|lia|]. 2:{ destruct cs as [|[[x|] l] cs]; [discriminate| |]; exact Logic.I. }
    cbn [then_]. rewrite C; [|lia|lia|exact A]. cbn [then_]. destruct cs; [discriminate|reflexivity].
  - (* for *) destruct (exp_fine e ltac:(assumption)) as (N1 & Y). destruct (block_fine pre ltac:(assumption) (Each pre ltac:(assumption) ltac:(assumption))) as (N2 & B1).
    destruct (block_fine post ltac:(assumption) (Each post ltac:(assumption) ltac:(assumption))) as (N3 & B2).
    destruct (block_fine l ltac:(assumption) (Each l ltac:(assumption) ltac:(assumption))) as (N4 & B3).
    exists (S (N1 + N2 + N3 + N4)). intros [|g] F rest A; [lia|]. change (ytoks (YFor pre e post l)) with (KWord "for" :: btoks pre ++ yetoks e ++ btoks post ++ btoks l). unlet. rewrite <- !app_assoc.
    rewrite B1; [|lia|exact Logic.I]. cbn [then_]. rewrite Y; [|lia|cbn; split; discriminate]. cbn [then_]. rewrite B2; [|lia|exact Logic.I]. cbn [then_]. rewrite B3; [reflexivity|lia|exact Logic.I].
  - (* function *) destruct (block_fine l ltac:(assumption) (Each l ltac:(assumption) ltac:(assumption))) as (N1 & B).
    assert (R : exists N, forall f, N <= f -> forall rest, (match sym "->" (match rs with [] => [] | _ => KSym "->" :: names_toks rs end ++ KSym "{" :: rest) with
        Some r => asm_names f r | None => Some ([], match rs with [] => [] | _ => KSym "->" :: names_toks rs end ++ KSym "{" :: rest) end) = Some (rs, KSym "{" :: rest)).
    { destruct rs as [|r rs]; [exists 0; reflexivity|]. destruct (names_ok (r :: rs) ltac:(discriminate) ltac:(assumption)) as (N & X). exists N. intros f' F rest.
      cbn [app sym String.eqb Ascii.eqb Bool.eqb]. apply X; [exact F|cbn; split; discriminate]. }
    destruct R as (N2 & R). exists (S (N1 + N2 + List.length ps)). intros [|g] F rest A; [lia|].
    change (ytoks (YFun f ps rs l)) with (KWord "function" :: path_toks f ++ KSym "(" :: commas (map path_toks ps) ++ KSym ")" ::
      match rs with [] => [] | _ => KSym "->" :: names_toks rs end ++ btoks l). unlet. rewrite <- app_assoc. rewrite name_ok; [|assumption|cbn; discriminate].
    cbn [then_ app sym after String.eqb Ascii.eqb Bool.eqb]. rewrite <- app_assoc. cbn [app].
    match goal with K : forallb yname_spelled ps = true |- _ => rewrite forallb_forall in K; rename K into Hp end.
    rewrite (items_ok asm_name ")" path_toks ps); [|discriminate| | |lia].
    + cbn [then_]. rewrite <- app_assoc. change (btoks l ++ rest) with (KSym "{" :: ((flat_map ytoks l ++ [KSym "}"]) ++ rest)). rewrite R by lia. cbn [then_].
      change (KSym "{" :: ((flat_map ytoks l ++ [KSym "}"]) ++ rest)) with (btoks l ++ rest). rewrite B; [reflexivity|lia|exact Logic.I].
    + intros a q I. destruct (name_word a q (Hp a I)) as (w & t & -> & _). reflexivity.
    + intros a q I (t & [-> | ->]); (apply name_ok; [auto|cbn; discriminate]).
  - (* word *) apply smem_In in Sp. exists 1. intros [|g] F rest A; [lia|]. destruct Sp as [<-|[<-|[<-|[]]]]; reflexivity.
Qed.

(** ** A block of statements and assembly *)

Definition asm_toks (flags : list string) (l : list ystmt) : list token :=
  KWord "assembly" :: match flags with [] => [] | _ => KSym "(" :: commas (map (fun s => [KText s]) flags) ++ [KSym ")"] end ++ btoks l.
Definition mtoks (m : mixed) : list token := match m with Usual s => ctoks s | Asm flags l => asm_toks flags l end.

Lemma yblock_all : forall tab l, forallb yul_spelled l = true -> forall ind one, lxs any (ytext tab ind one (YBlock l)) (btoks l).
Proof. intros tab l H. apply yblock_lexed; [|exact H]. apply Forall_forall. intros s _ ind one. apply ystmt_lexed. Qed.

Lemma mixed_lexed : forall tab ind m, mixed_spelled m = true -> match m with Usual _ => True | Asm flags _ => easy_flags flags end ->
  lxs any (mixed_text tab ind m) (mtoks m).
Proof.
  intros tab ind [s|flags l] H E; cbn [mixed_spelled mixed_text mtoks] in *; [now apply stmt_lexed|].
  unfold asm_text, asm_toks. ocat.
  assert (L : lxs any match flags with [] => "" | _ => cat ["("; sjoin ", " (map (fun s => cat [""""; s; """"]) flags); ") "] end
                      match flags with [] => [] | _ => KSym "(" :: commas (map (fun s => [KText s]) flags) ++ [KSym ")"] end).
  { destruct flags as [|s flags]; [apply lxs_nil|]. set (m := s :: flags) in *. ocat.
    lopen; [lstep; ltightn; [apply (lxs_commas (fun s => cat [""""; s; """"]) (fun s => [KText s]))|lit]|lclose]. intros x Hx. unfold easy_flags in E. rewrite Forall_forall in E. specialize (E x Hx).
    rewrite <- (SolText.escaped_simple x E) at 1. apply any_lxs, text_lexed. }
  lopen; [lstep; eapply lxs_lit; [exact L|now apply yblock_all]|lclose].
Qed.

Lemma not_assembly : forall s r, stmt_spelled s = true -> word "assembly" (ctoks s ++ r) = None.
Proof.
  assert (B : forall ts, simple_start ts = true -> word "assembly" ts = None) by (intros ts; apply simple_not; cbn; tauto).
  intros s r Sp. destruct s; try reflexivity.
  - cbn [stmt_spelled] in Sp. unfold exp_spelled in Sp. andb. cbn [ctoks]. rewrite <- app_assoc. cbn [app]. apply B, plain_simple, exp_plain; [assumption|now apply negb_true_iff].
  - destruct l as [|o [|o2 l]]; [discriminate Sp| |reflexivity]. destruct o as [v|]; [|discriminate Sp]. cbn [stmt_spelled] in Sp. andb.
    cbn [ctoks List.length Nat.ltb Nat.leb map otoks commas]. unfold commas. cbn [tjoin]. rewrite <- app_assoc. apply B. now apply local_start.
  - cbn [ctoks]. destruct unchecked; reflexivity.
  - cbn [stmt_spelled] in Sp. apply smem_In in Sp. destruct Sp as [<-|[<-|[<-|[]]]]; reflexivity.
Qed.

Definition after_mixed (rest : list token) : Prop := word "else" rest = None /\ word "catch" rest = None.

Lemma asm_fine : forall flags l, forallb yul_spelled l = true -> ok assembly (fun _ => True) (asm_toks flags l) (flags, l).
Proof.
  intros flags l H. destruct (block_fine l H) as (N & B).
  { apply Forall_forall. intros s I. apply stmt_fine. rewrite forallb_forall in H. auto. }
  exists (N + List.length flags). intros f F rest _. unfold assembly, asm_toks. cbn [app word String.eqb Ascii.eqb Bool.eqb after]. rewrite <- app_assoc.
  assert (E : match sym "(" (match flags with [] => [] | _ => KSym "(" :: commas (map (fun s => [KText s]) flags) ++ [KSym ")"] end ++ btoks l ++ rest) with
              | Some r => items1 f flag ")" r
              | None => Some ([], match flags with [] => [] | _ => KSym "(" :: commas (map (fun s => [KText s]) flags) ++ [KSym ")"] end ++ btoks l ++ rest)
              end = Some (flags, btoks l ++ rest)).
  { destruct flags as [|s flags]; [reflexivity|]. set (m := s :: flags) in *. cbn [app sym String.eqb Ascii.eqb Bool.eqb]. rewrite <- app_assoc. cbn [app].
    apply (items1_ok flag ")" (fun s => [KText s]) m); [discriminate|discriminate|reflexivity|lia]. }
  rewrite E. cbn [then_]. rewrite B; [reflexivity|lia|exact Logic.I].
Qed.

Lemma mixed_fine : forall m, mixed_spelled m = true -> ok mixed_stmt after_mixed (mtoks m) m.
Proof.
  intros [s|flags l] H; cbn [mixed_spelled mtoks] in *.
  - destruct (stmt_ok s H) as (N & X). exists N. intros f F rest (A & B). unfold mixed_stmt. rewrite not_assembly by exact H. rewrite X; [reflexivity|exact F|]. split; auto.
  - destruct (asm_fine flags l H) as (N & X). exists N. intros f F rest _. unfold mixed_stmt. specialize (X f F rest Logic.I).
    change (word "assembly" (asm_toks flags l ++ rest)) with (Some (tl (asm_toks flags l ++ rest))). cbn match. rewrite X. reflexivity.
Qed.

Lemma mixed_begins : forall m r, mixed_spelled m = true -> after_mixed (mtoks m ++ r) /\ sym "}" (mtoks m ++ r) = None.
Proof.
  intros [s|flags l] r H; cbn [mixed_spelled mtoks] in *; [|repeat split; reflexivity]. destruct (stmt_begins s r H) as (A & B & C). repeat split; assumption.
Qed.

Lemma mixed_tokens_read : forall s l, forallb mixed_spelled l = true ->
  (exists N, forall f, N <= f -> lex f s = Some (KSym "{" :: flat_map mtoks l ++ [KSym "}"])) -> reads_block s l.
Proof.
  intros s l H (N1 & X). rewrite forallb_forall in H.
  destruct (ok_all mixed_stmt after_mixed mtoks l) as (N2 & C). { intros m I. apply mixed_fine. auto. }
  exists (N1 + N2 + S (List.length l)). intros f F. unfold read_block. rewrite X by lia. cbn [sym String.eqb Ascii.eqb Bool.eqb after].
  rewrite (until_ok (mixed_stmt f) "}" mtoks after_mixed l []); [reflexivity| | | | |lia].
  - intros m r I. now apply mixed_begins, H.
  - split; reflexivity.
  - intros m r I. now apply mixed_begins, H.
  - intros m r I A. apply C; [exact I|lia|exact A].
Qed.

Lemma mixed_reads : forall tab ind l, l <> [] -> forallb mixed_spelled l = true -> Forall (fun m => match m with Usual _ => True | Asm flags _ => easy_flags flags end) l ->
  reads_block (mixed_block tab ind l) l.
Proof.
  intros tab ind l Ne H E. apply mixed_tokens_read; [exact H|]. rewrite forallb_forall in H. rewrite Forall_forall in E. apply lx_lex.
  assert (L : lxs any (mixed_block tab ind l) (KSym "{" :: flat_map mtoks l ++ [KSym "}"])).
  { unfold mixed_block. ocat. lopen; [lstep; lstep; eapply lxs_lit; [apply (lxs_lines _ mtoks); [apply newline_lexed|]|lstep; lstep; lit]|lclose].
    intros m I. change (mtoks m) with ([] ++ mtoks m). eapply lxs_lit; [apply margin_lexed|]. apply mixed_lexed; [auto|exact (E m I)]. }
  specialize (L "" eq_refl). now rewrite append_nil_s in L.
Qed.

Lemma lex_more : forall f s ts, lex f s = Some ts -> forall g, f <= g -> lex g s = Some ts.
Proof.
  induction f as [|f IH]; intros s ts H [|g] G; [discriminate H|discriminate H|lia|]. cbn [lex] in *. destruct s as [|c s]; [exact H|].
  destruct (next (String c s)) as [(t, r)|]; [|discriminate H]. destruct (lex f r) as [l|] eqn:E; [|discriminate H]. rewrite (IH r l E g) by lia. exact H.
Qed.

Lemma block_one : forall s l1 l2, reads_block s l1 -> reads_block s l2 -> l1 = l2.
Proof. intros s l1 l2 (N & H) (M & K). specialize (H (N + M) ltac:(lia)). specialize (K (N + M) ltac:(lia)). congruence. Qed.
