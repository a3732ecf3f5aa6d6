(** The tokens of the text of a Solidity program: members and source files. *)
From Coq Require Import String Ascii List NArith ZArith Bool Lia.
From Verif Require Import Base Json SpecPrinter SpecLiteral SpecVyText SpecSolText SpecSolRead LitFacts PathFacts SolReadLex SolReadToks SolReadToks2 SolTextClaims SolTextStmt.
From Verif Require SolText.
Import ListNotations.
Open Scope string_scope.
Open Scope list_scope.

Definition call_toks (m : sexp * option (list sexp)) : list token :=
  id_toks (fst m) ++ otoks (fun l => KSym "(" :: commas (map xtoks l) ++ [KSym ")"]) (snd m).
Definition ends_toks (b : option sstmt) : list token := match b with Some s => ctoks s | None => [KSym ";"] end.

Definition fun_toks (f : sfun) : list token :=
  (if sf_kind f =?s "function" then [KWord "function"; KWord (sf_name f)] else [KWord (sf_kind f)]) ++ params_toks (sf_params f) ++
  (wtoks (sf_visibility f) ++ ftoks (sf_virtual f) "virtual" ++ wtoks (sf_mutability f) ++ override_toks (sf_override f) ++
   flat_map call_toks (sf_modifiers f)) ++
  returns_toks (sf_returns f) ++ ends_toks (sf_body f).

Definition for_toks (t : option sexp) (global : bool) : list token :=
  KWord "for" :: match t with Some t => xtoks t | None => [KSym "*"] end ++ ftoks global "global" ++ [KSym ";"].

Definition alias_toks (o : option string) : list token := otoks (fun a => [KWord "as"; KWord a]) o.
Definition using_toks (p : string * option string) : list token := path_toks (fst p) ++ otoks (fun op => [KWord "as"; KSym op]) (snd p).

Definition mtoks (m : smember) : list token :=
  match m with
  | MVar v => var_toks v ++ [KSym ";"]
  | MFun f => fun_toks f
  | MModifier f ps virtual override body =>
      KWord "modifier" :: KWord f :: params_toks ps ++ ftoks virtual "virtual" ++ override_toks override ++ ends_toks body
  | MEvent f ps anonymous => KWord "event" :: KWord f :: params_toks ps ++ ftoks anonymous "anonymous" ++ [KSym ";"]
  | MError f ps => KWord "error" :: KWord f :: params_toks ps ++ [KSym ";"]
  | MStruct f l => KWord "struct" :: KWord f :: KSym "{" :: flat_map (fun v => var_toks v ++ [KSym ";"]) l ++ [KSym "}"]
  | MEnum f l => KWord "enum" :: KWord f :: KSym "{" :: commas (map (fun x => [KWord x]) l) ++ [KSym "}"]
  | MType f t => KWord "type" :: KWord f :: KWord "is" :: xtoks t ++ [KSym ";"]
  | MUsing lib t global => KWord "using" :: id_toks lib ++ for_toks t global
  | MUsingFuns l t global => KWord "using" :: KSym "{" :: commas (map using_toks l) ++ KSym "}" :: for_toks t global
  end.

Definition version_toks (v : string * list string) : list token := (if fst v =?s "" then [] else [KSym (fst v)]) ++ map KNum (snd v).
Definition import_toks (p : string * option string) : list token := KWord (fst p) :: alias_toks (snd p).

Definition ptoks (p : stop) : list token :=
  match p with
  | PWord w x => [KWord "pragma"; KWord w; KWord x; KSym ";"]
  | PSolidity l => KWord "pragma" :: KWord "solidity" :: flat_map version_toks l ++ [KSym ";"]
  | PImport file names alias =>
      KWord "import" :: match names with [] => [] | _ => KSym "{" :: commas (map import_toks names) ++ [KSym "}"; KWord "from"] end ++
      KText file :: alias_toks alias ++ [KSym ";"]
  | PContract abstract kind f bases l =>
      ftoks abstract "abstract" ++ KWord kind :: KWord f ::
      match bases with [] => [] | _ => KWord "is" :: commas (map call_toks bases) end ++ KSym "{" :: flat_map mtoks l ++ [KSym "}"]
  | PMember m => mtoks m
  end.

(** ** Members *)

Lemma call_lexed : forall tab ind m, call_spelled m = true -> lxs tightn (call_text tab ind m) (call_toks m).
Proof.
  intros tab ind (e, o) H. unfold call_spelled in H. cbn [fst snd] in H. andb. unfold call_text, call_toks. cbn [fst snd].
  destruct o as [l|]; cbn [otext otoks].
  - ltightn; [now apply tight_lxs, id_lexed|]. apply any_lxs. ocat. cbn [maybe] in *. lopen; [lstep; ltightn; [apply (lxs_commas _ xtoks)|lit]|lclose].
    intros x Hx. apply exp_lexed'. match goal with K : forallb _ _ = true |- _ => rewrite forallb_forall in K; auto end.
  - rewrite append_nil_s, app_nil_r. now apply tight_lxs, id_lexed.
Qed.

Lemma ends_lexed : forall tab ind b, body_spelled b = true -> lxs any (ends tab ind b) (ends_toks b).
Proof.
  intros tab ind [s|] H; [|lit]. cbn [body_spelled maybe] in H. andb. unfold ends, ends_toks. change (String " " (ctext tab ind s)) with (String.append " " (ctext tab ind s)).
  lopen; [lstep; now apply stmt_lexed|lclose].
Qed.
Lemma ends_headed : forall tab ind b, headed tightn (ends tab ind b).
Proof. intros tab ind [s|]; hdd. Qed.

Lemma calls_lexed : forall tab ind l, forallb call_spelled l = true ->
  lxs tightn (cat (map (fun m => String " " (call_text tab ind m)) l)) (flat_map call_toks l) /\ soft tightn (cat (map (fun m => String " " (call_text tab ind m)) l)).
Proof.
  intros tab ind l. induction l as [|m l IH]; intros H; [split; [apply lxs_nil|reflexivity]|]. cbn [forallb] in H. andb. destruct IH as (L & So); [assumption|].
  split; [|reflexivity]. change (cat (map (fun m => String " " (call_text tab ind m)) (m :: l))) with
    (String.append (String.append " " (call_text tab ind m)) (cat (map (fun m => String " " (call_text tab ind m)) l))).
  cbn [flat_map]. apply lxs_soft; [|exact L|exact So]. change (call_toks m) with ([] ++ call_toks m). lnext. now apply call_lexed.
Qed.

Lemma returns_lexed : forall tab ind l, forallb param_spelled l = true ->
  lxs tightn match l with [] => "" | l => String.append " returns " (params_text tab ind l) end (returns_toks l) /\
  soft tightn match l with [] => "" | l => String.append " returns " (params_text tab ind l) end.
Proof.
  intros tab ind [|v l] H; [split; [apply lxs_nil|reflexivity]|]. split; [|reflexivity]. apply any_lxs. unfold returns_toks.
  lopen; [lstep; now apply params_lexed|lclose].
Qed.

Lemma params_headed : forall tab ind l, headed tightn (params_text tab ind l).
Proof. intros tab ind l. unfold params_text, cat. cbn [fold_right]. exists "("%char. eexists. split; [cbn [String.append]; reflexivity|reflexivity]. Qed.

(** Something that may be missing, and then a beginning that ends it. *)
Lemma lxs_then : forall s1 t1 s2 t2, lxs tightn s1 t1 -> soft tightn s1 -> lxs any s2 t2 /\ headed tightn s2 ->
  lxs any (String.append s1 s2) (t1 ++ t2) /\ headed tightn (String.append s1 s2).
Proof. intros s1 t1 s2 t2 A B (C & D). split; [now apply (lxs_headed tightn any)|now apply headed_soft]. Qed.

Lemma tight_headed : forall s, headed tightn s -> headed tight s.
Proof. intros s. apply headed_weak. exact tightn_tight. Qed.

Lemma blank_visible : forall l s, smem s ("" :: l) = true -> forallb wordy l = true -> blank_or wordy s = true.
Proof.
  intros l s H W. apply smem_In in H. destruct H as [<-|H]; [reflexivity|]. unfold blank_or. destruct (s =?s ""); [reflexivity|].
  rewrite forallb_forall in W. now apply W.
Qed.

Lemma fun_lexed : forall tab ind f, fun_spelled f = true -> lxs any (fun_text tab ind f) (fun_toks f).
Proof.
  intros tab ind f H. unfold fun_spelled in H. andb. unfold fun_text, fun_toks. ocat. rewrite <- !app_assoc.
  eapply (lxs_headed tight any).
  - destruct (sf_kind f =?s "function") eqn:K.
    + change [KWord "function"; KWord (sf_name f)] with ([KWord "function"] ++ [KWord (sf_name f)]). lnext. now apply wordy_lexed, name_wordy.
    + andb. apply wordy_lexed. eapply all_wordy; [|eassumption]. reflexivity.
  - eapply lxs_lit; [now apply params_lexed|]. destruct (calls_lexed tab ind (sf_modifiers f)) as (C1 & C2); [assumption|].
    destruct (returns_lexed tab ind (sf_returns f)) as (R1 & R2); [assumption|].
    apply (lxs_then (spaced (sf_visibility f))); [apply tight_lxs, spaced_lexed; eapply blank_visible; [eassumption|reflexivity]|apply spaced_soft|].
    apply lxs_then; [apply tight_lxs, flagged_lexed; reflexivity|apply flagged_soft|].
    apply lxs_then; [apply tight_lxs, spaced_lexed; eapply blank_smem; [|eassumption]; reflexivity|apply spaced_soft|].
    apply lxs_then; [now apply override_lexed|apply override_soft|].
    apply lxs_then; [exact C1|exact C2|]. apply lxs_then; [destruct (sf_returns f); exact R1|destruct (sf_returns f); exact R2|]. split; [now apply ends_lexed|apply ends_headed].
  - apply headed_app, tight_headed, params_headed.
Qed.

Lemma for_lexed : forall tab ind t g, maybe type_spelled t = true -> lxs any (for_text tab ind t g) (for_toks t g).
Proof.
  intros tab ind t g H. unfold for_text, for_toks. ocat. destruct t as [t|].
  - lopen; [lstep; eapply (lxs_headed tightn any); [now apply type_lexed|ltightn; [apply tight_lxs, flagged_lexed; reflexivity|lit]|apply headed_soft; [apply flagged_soft|hdd]]|lclose].
  - destruct g; lit.
Qed.
Lemma for_headed : forall tab ind t g, headed tightn (for_text tab ind t g).
Proof. intros. unfold for_text, cat. cbn [fold_right]. exists " "%char. eexists. split; [cbn [String.append]; reflexivity|reflexivity]. Qed.

(** After an operator in a list of functions. *)
Definition listed (c : ascii) : bool := Ascii.eqb c "," || Ascii.eqb c "010".

Lemma operator_lexed : forall op, smem op defined_operators = true -> lxs listed op [KSym op].
Proof.
  intros op H rest R. apply smem_In in H.
  assert (Q : rest = "" \/ exists r, rest = String "," r \/ rest = String "010" r).
  { destruct rest as [|c r]; [now left|]. right. exists r. cbn in R. apply orb_true_iff in R. destruct R as [R|R]; apply Ascii.eqb_eq in R; subst; tauto. }
  repeat (destruct H as [<-|H]; [eapply lx_tok; [|constructor]; destruct Q as [->|(r & [-> | ->])]; reflexivity|]). destruct H.
Qed.

Lemma using_lexed : forall p, path_name (fst p) && maybe (fun op => smem op defined_operators) (snd p) = true ->
  lxs listed (String.append (fst p) (otext (snd p) (fun op => String.append " as " op))) (using_toks p).
Proof.
  intros (x, o) H. cbn [fst snd] in *. andb. unfold using_toks. cbn [fst snd]. destruct o as [op|]; cbn [otext otoks].
  - eapply (lxs_headed tight); [now apply path_lexed| |hdd]. lopen; [lstep; now apply operator_lexed|lclose].
  - rewrite append_nil_s, app_nil_r. eapply lxs_weak; [|now apply path_lexed]. chars.
Qed.

Lemma member_lexed : forall tab ind m, member_spelled m = true -> lxs any (mtext tab ind m) (mtoks m).
Proof.
  intros tab ind m H. destruct m; cbn [member_spelled] in H; cbn [mtext mtoks].
  - unfold state_spelled in H. andb. ltightn; [now apply var_lexed|lit].
  - now apply fun_lexed.
  - andb. ocat. lopen; [lstep; eapply (lxs_headed tight); [now apply wordy_lexed, name_wordy|eapply lxs_lit; [now apply params_lexed|]|apply headed_app, tight_headed, params_headed]|].
    + apply (lxs_then (flagged virtual "virtual")); [apply tight_lxs, flagged_lexed; reflexivity|apply flagged_soft|].
      apply lxs_then; [now apply override_lexed|apply override_soft|]. split; [now apply ends_lexed|apply ends_headed].
    + lclose.
  - andb. ocat. lopen; [lstep; eapply (lxs_headed tight); [now apply wordy_lexed, name_wordy|eapply lxs_lit; [now apply params_lexed|]|apply headed_app, tight_headed, params_headed]|].
    + apply (lxs_then (flagged anonymous "anonymous")); [apply tight_lxs, flagged_lexed; reflexivity|apply flagged_soft|]. split; [lit|hdd].
    + lclose.
  - andb. ocat. lopen; [lstep; eapply (lxs_headed tight); [now apply wordy_lexed, name_wordy|eapply lxs_lit; [now apply params_lexed|lit]|apply headed_app, tight_headed, params_headed]|lclose].
  - andb. ocat. match goal with K : forallb _ l = true |- _ => rewrite forallb_forall in K; rename K into Hl end.
    lopen; [lstep; eapply (lxs_headed tight); [now apply wordy_lexed, name_wordy| |hdd]; lstep; lstep; eapply lxs_lit; [|lstep; lstep; lit]|].
    + apply (lxs_lines _ (fun v => var_toks v ++ [KSym ";"])); [apply newline_lexed|]. intros v Hv. ocat.
      lopen; [lstep; ltightn; [now apply param_lexed, Hl|lit]|lclose].
    + lclose.
  - andb. ocat. match goal with K : forallb _ l = true |- _ => rewrite forallb_forall in K; rename K into Hl end.
    lopen; [lstep; eapply (lxs_headed tight); [now apply wordy_lexed, name_wordy| |hdd]; lstep; eapply (lxs_headed tightn); [|lstep; lstep; lit|hdd]|].
    + apply (lxs_commas _ (fun x => [KWord x])). intros x Hx. ocat. lopen; [lstep; lstep; apply tight_lxs, wordy_lexed, name_wordy, Hl, Hx|lclose].
    + lclose.
  - andb. ocat. lopen; [lstep; eapply (lxs_headed tight); [now apply wordy_lexed, name_wordy| |hdd]; lstep; ltightn; [now apply type_lexed|lit]|lclose].
  - andb. ocat. lopen; [lstep; eapply (lxs_headed tight); [now apply id_lexed|now apply for_lexed|apply tight_headed, for_headed]|lclose].
  - andb. ocat. match goal with K : forallb _ l = true |- _ => rewrite forallb_forall in K; rename K into Hl end.
    lopen; [lstep; lstep; eapply (lxs_headed listed); [|lstep; lstep; lstep; now apply for_lexed|hdd]|].
    + apply lxs_join; [hdd|unfold newline; lit|]. apply (F2map (lxs listed) _ using_toks). intros p Hp. ocat.
      lopen; [lstep; now apply using_lexed, Hl|lclose].
    + lclose.
Qed.

(** ** Source files *)

Lemma digit_ascii : forall c, digit c = true -> In c ["0"; "1"; "2"; "3"; "4"; "5"; "6"; "7"; "8"; "9"]%char.
Proof.
  intros c H. apply (imp_chars digit (fun c => existsb (Ascii.eqb c) ["0"; "1"; "2"; "3"; "4"; "5"; "6"; "7"; "8"; "9"]%char) eq_refl) in H.
  apply existsb_exists in H. destruct H as (d & I & E). apply Ascii.eqb_eq in E. now subst.
Qed.

Lemma sign_lexed : forall s ts p x, smem x version_signs = true -> headed digit s -> lxs p s ts -> lxs p (String.append x s) (KSym x :: ts).
Proof.
  intros s ts p x H (c & r & -> & Hc) L rest R. rewrite append_assoc. cbn [String.append]. eapply lx_tok; [|exact (L rest R)]. apply digit_ascii in Hc. cbn [String.append].
  apply smem_In in H. cbn in Hc.
  repeat (destruct H as [<-|H]; [repeat (destruct Hc as [<-|Hc]; [reflexivity|]); destruct Hc|]). destruct H.
Qed.

Definition version_end (c : ascii) : bool := Ascii.eqb c " " || Ascii.eqb c ";".

Lemma dots_lexed : forall l, forallb dot_digits l = true -> lxs version_end (cat l) (map KNum l) /\ soft piece_end (cat l).
Proof.
  induction l as [|x l IH]; intros H; [split; [apply lxs_nil|reflexivity]|]. cbn [forallb] in H. andb. destruct IH as (L & So); [assumption|].
  assert (D : lxs piece_end x [KNum x]) by now apply dot_lexed.
  unfold cat in *. cbn [fold_right map]. split.
  - intros rest R. rewrite append_assoc. change (KNum x :: map KNum l) with ([KNum x] ++ map KNum l). eapply lx_app; [|exact (L rest R)]. apply D.
    destruct (fold_right String.append "" l); [|exact So]. cbn [String.append]. revert R. apply next_is_weak. chars.
  - destruct x as [|c x]; [discriminate|]. cbn in *. andb. unfold soft. cbn. unfold piece_end. match goal with K : Ascii.eqb c "." = true |- _ => rewrite K end. apply orb_true_r.
Qed.

Lemma digits_head : forall s, digits s = true -> headed digit s.
Proof. intros [|c s] H; [discriminate|]. unfold digits in H. cbn in H. andb. exists c, s. now split. Qed.
Lemma two_head : forall s, two_digits s = true -> headed digit s.
Proof.
  intros s H. unfold two_digits in H. destruct (span digit s) as (a, b) eqn:E. andb. apply span_parts in E. subst. apply headed_app. now apply digits_head.
Qed.

Lemma pieces_lexed : forall l, pieces_spelled l = true -> lxs version_end (cat l) (map KNum l) /\ headed digit (cat l).
Proof.
  intros [|x l] H; [discriminate|]. unfold pieces_spelled in H.
  assert (C : l = [] /\ digits x = true \/ two_digits x = true /\ forallb dot_digits l = true).
  { destruct l as [|y l]; [apply orb_true_iff in H; destruct H; [left|right]; split; auto|]. andb. right. now split. }
  clear H. destruct C as [(-> & D)|(D & F)].
  - unfold cat. cbn [fold_right map]. rewrite append_nil_s. split; [|now apply digits_head]. eapply lxs_weak; [|now apply digits_lexed]. chars.
  - destruct (dots_lexed l F) as (L & So). split.
    + intros rest R. unfold cat. cbn [fold_right map]. rewrite append_assoc. change (KNum x :: map KNum l) with ([KNum x] ++ map KNum l). eapply lx_app; [|exact (L rest R)].
      apply two_lexed; [exact D|]. change (fold_right String.append "" l) with (cat l). clear L. revert So. destruct (cat l); intros So; [|exact So].
      cbn [String.append]. revert R. apply next_is_weak. chars.
    + unfold cat. cbn [fold_right]. apply headed_app. now apply two_head.
Qed.

Lemma version_lexed : forall v, blank_or (fun s => smem s version_signs) (fst v) && pieces_spelled (snd v) = true ->
  lxs version_end (String " " (cat (fst v :: snd v))) (version_toks v).
Proof.
  intros (x, l) H. cbn [fst snd] in *. andb. destruct (pieces_lexed l) as (L & Hd); [assumption|]. unfold version_toks. cbn [fst snd].
  change (String " " (cat (x :: l))) with (String.append " " (String.append x (cat l))).
  assert (K : lxs version_end (String.append x (cat l)) ((if x =?s "" then [] else [KSym x]) ++ map KNum l)).
  { unfold blank_or in *. destruct (x =?s "") eqn:E; [seqb; exact L|]. cbn [app]. now apply sign_lexed. }
  lopen; [lstep; exact K|reflexivity].
Qed.

Lemma versions_lexed : forall l, forallb (fun v => blank_or (fun s => smem s version_signs) (fst v) && pieces_spelled (snd v)) l = true ->
  lxs version_end (cat (map (fun v => String " " (cat (fst v :: snd v))) l)) (flat_map version_toks l) /\
  soft version_end (cat (map (fun v => String " " (cat (fst v :: snd v))) l)).
Proof.
  induction l as [|v l IH]; intros H; [split; [apply lxs_nil|reflexivity]|]. cbn [forallb] in H. apply andb_true_iff in H. destruct H as (Hv & H).
  destruct (IH H) as (L & So). split; [|reflexivity].
  change (cat (map (fun v => String " " (cat (fst v :: snd v))) (v :: l))) with (String.append (String " " (cat (fst v :: snd v))) (cat (map (fun v => String " " (cat (fst v :: snd v))) l))).
  cbn [flat_map]. apply lxs_soft; [now apply version_lexed|exact L|exact So].
Qed.

Lemma alias_lexed : forall o, maybe name o = true -> lxs tightn (otext o (fun a => String.append " as " a)) (alias_toks o).
Proof.
  intros [a|] H; [|apply lxs_nil]. cbn [otext alias_toks otoks]. apply tight_lxs. lopen; [lstep; now apply wordy_lexed, name_wordy|lclose].
Qed.
Lemma alias_soft : forall o, soft tightn (otext o (fun a => String.append " as " a)).
Proof. intros [a|]; reflexivity. Qed.

Lemma top_lexed : forall tab p, top_spelled p = true -> lxs any (ptext tab p) (ptoks p).
Proof.
  intros tab p H. destruct p; cbn [top_spelled] in H; cbn [ptext ptoks].
  - andb. ocat. lopen; [lstep; eapply (lxs_headed tight); [now apply wordy_lexed, name_wordy| |hdd]; lstep; eapply (lxs_headed tight); [now apply wordy_lexed, name_wordy|lit|hdd]|lclose].
  - andb. ocat. destruct (versions_lexed l) as (L & So); [assumption|].
    lopen; [eapply (lxs_headed tight); [|eapply (lxs_headed version_end any); [exact L|lit|hdd]|]|].
    + change "pragma solidity" with (String.append "pragma " "solidity"). lstep. now apply wordy_lexed.
    + destruct l; hdd.
    + lclose.
  - andb. ocat. match goal with K : forallb _ names = true |- _ => rewrite forallb_forall in K; rename K into Hn end.
    assert (F : lxs any (String.append """" (String.append file """")) [KText file]).
    { pose proof (text_lexed file) as T. rewrite plain_escaped in T by assumption. exact T. }
    assert (N : lxs any match names with [] => "" | _ => cat ["{"; sjoin ", " (map (fun p => String.append (fst p) (otext (snd p) (fun a => String.append " as " a))) names); "} from "] end
      match names with [] => [] | _ => KSym "{" :: commas (map import_toks names) ++ [KSym "}"; KWord "from"] end).
    { destruct names as [|n names]; [apply lxs_nil|]. ocat. lopen; [lstep; ltightn; [apply (lxs_commas _ import_toks)|lit]|lclose]. intros (x, o) Hx. specialize (Hn _ Hx). cbn [fst snd] in *. andb.
      unfold import_toks. cbn [fst snd]. change (KWord x :: alias_toks o) with ([KWord x] ++ alias_toks o).
      apply lxs_soft; [now apply tight_lxs, wordy_lexed, name_wordy|now apply alias_lexed|apply alias_soft]. }
    rewrite <- (append_assoc file), <- (append_assoc """" (String.append file """")).
    lopen; [lstep; eapply lxs_lit; [exact N|]; eapply lxs_lit; [exact F|]; ltightn; [now apply alias_lexed|lit]|lclose].
  - andb. ocat. match goal with K : forallb _ l = true |- _ => rewrite forallb_forall in K; rename K into Hl end.
    match goal with K : forallb _ bases = true |- _ => rewrite forallb_forall in K; rename K into Hb end.
    assert (A : lxs any (if abstract then "abstract " else "") (ftoks abstract "abstract")) by (destruct abstract; lit).
    assert (B : lxs tightn match bases with [] => "" | _ => String.append " is " (sjoin ", " (map (call_text tab 0) bases)) end
      match bases with [] => [] | _ => KWord "is" :: commas (map call_toks bases) end).
    { destruct bases as [|b bases]; [apply lxs_nil|]. lopen; [lstep; apply (lxs_commas _ call_toks); intros m Hm; now apply call_lexed, Hb|lclose]. }
    assert (M : lxs any (String.append match l with [] => "" | _ => cat [newline; sjoin (String.append newline newline) (map (fun m => String.append (margin tab 1) (mtext tab 1 m)) l); newline] end "}")
      (flat_map mtoks l ++ [KSym "}"])).
    { destruct l as [|m l]; [lit|]. set (ms := m :: l) in *. eapply lxs_lit; [|lit]. ocat. lopen; [lstep; eapply lxs_lit; [|apply newline_lexed]|].
      - apply (lxs_lines _ mtoks); [unfold newline; lit|]. intros x Hx. lopen; [lstep; now apply member_lexed, Hl|lclose].
      - lclose. }
    lopen; [eapply lxs_lit; [exact A|]; eapply (lxs_headed tight); [|lstep; eapply (lxs_headed tight); [now apply wordy_lexed, name_wordy|eapply (lxs_headed tightn); [exact B|lstep; exact M|hdd]|]|hdd]|].
    + apply wordy_lexed. eapply all_wordy; [|eassumption]. reflexivity.
    + destruct bases; hdd.
    + lclose.
  - now apply member_lexed.
Qed.

Lemma comment_lexed : forall s, one_line s -> lxs any (cat ["// SPDX-License-Identifier: "; s; newline]) [].
Proof.
  intros s H. ocat.
  assert (E : forall r, snd (span (fun a => negb (Ascii.eqb a "010")) (String.append s (String "010" r))) = String "010" r).
  { intros r. unfold one_line in H. induction s as [|c s IH]; [reflexivity|]. cbn [str_contains] in H. destruct (Ascii.eqb "010" c) eqn:Hc; [discriminate H|].
    cbn [String.append]. change (span (fun a => negb (Ascii.eqb a "010")) (String c (String.append s (String "010" r)))) with
      (if negb (Ascii.eqb c "010") then let (a, b) := span (fun a => negb (Ascii.eqb a "010")) (String.append s (String "010" r)) in (String c a, b) else ("", String c (String.append s (String "010" r)))).
    rewrite Ascii.eqb_sym, Hc. cbn [negb]. specialize (IH H). destruct (span _ (String.append s _)) as (a, b). exact IH. }
  intros rest _. rewrite !append_assoc. unfold newline. cbn [String.append]. eapply lx_skip.
  - unfold next. cbn [Ascii.eqb Bool.eqb orb andb starts_with]. reflexivity.
  - reflexivity.
  - set (t := String.append s (String "010" rest)) in *.
    assert (S : forall a r, snd (span (fun a => negb (Ascii.eqb a "010")) (String a r)) = if negb (Ascii.eqb a "010") then snd (span (fun a => negb (Ascii.eqb a "010")) r) else String a r).
    { intros a r. change (span (fun a => negb (Ascii.eqb a "010")) (String a r)) with (if negb (Ascii.eqb a "010") then let (x, b) := span (fun a => negb (Ascii.eqb a "010")) r in (String a x, b) else ("", String a r)).
      destruct (negb _); [|reflexivity]. now destruct (span _ r). }
    rewrite !S. cbn [Ascii.eqb Bool.eqb negb]. subst t. rewrite E. eapply lx_skip; [reflexivity|reflexivity|constructor].
Qed.

Theorem unit_lexed : forall tab license l, (forall s, license = Some s -> one_line s) -> forallb top_spelled l = true ->
  lxs any (unit_text tab license l) (flat_map ptoks l).
Proof.
  intros tab license l Hl H. rewrite forallb_forall in H. unfold unit_text. ocat. lopen; [eapply lxs_lit; [|eapply lxs_lit; [|lstep; apply newline_lexed]]|].
  - destruct license as [s|]; [|apply lxs_nil]. now apply comment_lexed, Hl.
  - apply (lxs_lines _ ptoks); [unfold newline; lit|]. intros p Hp. now apply top_lexed, H.
  - lclose.
Qed.
