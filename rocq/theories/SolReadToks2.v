(** The tokens of the text of a Solidity program: variables and statements. *)
From Coq Require Import String Ascii List NArith ZArith Bool Lia.
From Verif Require Import Base Json SpecLiteral SpecVyText SpecSolText SpecSolRead LitFacts PathFacts SolReadLex SolReadToks SolTextClaims SolTextStmt.
From Verif Require SolText.
Import ListNotations.
Open Scope string_scope.
Open Scope list_scope.

Definition id_toks (e : sexp) : list token := match e with XId x => path_toks x | _ => [] end.
Definition override_toks (o : option (list sexp)) : list token :=
  match o with
  | None => []
  | Some [] => [KWord "override"]
  | Some l => KWord "override" :: KSym "(" :: commas (map id_toks l) ++ [KSym ")"]
  end.

Definition value_toks (o : option sexp) : list token := otoks (fun e => KSym "=" :: xtoks e) o.
Definition word_toks (v : svar) : list token :=
  wtoks (sv_visibility v) ++ ftoks (sv_constant v) "constant" ++ ftoks (sv_indexed v) "indexed" ++ override_toks (sv_override v) ++
  ftoks (sv_immutable v) "immutable" ++ wtoks (sv_location v) ++ wtoks (sv_name v).
Definition var_toks (v : svar) : list token := xtoks (sv_type v) ++ word_toks v ++ value_toks (sv_value v).
Definition params_toks (l : list svar) : list token := KSym "(" :: commas (map var_toks l) ++ [KSym ")"].

Definition returns_toks (l : list svar) : list token := match l with [] => [] | _ => KWord "returns" :: params_toks l end.

Fixpoint ctoks (s : sstmt) : list token :=
  match s with
  | CExp e => xtoks e ++ [KSym ";"]
  | CVar l e =>
      (if Nat.ltb 1 (List.length l) then KSym "(" :: commas (map (otoks var_toks) l) ++ [KSym ")"] else commas (map (otoks var_toks) l)) ++
      value_toks e ++ [KSym ";"]
  | CBlock u l => ftoks u "unchecked" ++ KSym "{" :: flat_map ctoks l ++ [KSym "}"]
  | CIf e yes no =>
      KWord "if" :: KSym "(" :: xtoks e ++ KSym ")" :: ctoks yes ++ match no with Some no => KWord "else" :: ctoks no | None => [] end
  | CWhile e s => KWord "while" :: KSym "(" :: xtoks e ++ KSym ")" :: ctoks s
  | CDo s e => KWord "do" :: ctoks s ++ KWord "while" :: KSym "(" :: xtoks e ++ [KSym ")"; KSym ";"]
  | CFor init e loop s =>
      KWord "for" :: KSym "(" :: match init with Some i => ctoks i | None => [KSym ";"] end ++ otoks xtoks e ++ KSym ";" ::
      otoks xtoks loop ++ KSym ")" :: ctoks s
  | CReturn e => KWord "return" :: otoks xtoks e ++ [KSym ";"]
  | CEmit e => KWord "emit" :: xtoks e ++ [KSym ";"]
  | CRevert e => KWord "revert" :: xtoks e ++ [KSym ";"]
  | CWord w => [KWord w; KSym ";"]
  | CTry e rs s clauses =>
      KWord "try" :: xtoks e ++ returns_toks rs ++ ctoks s ++
      flat_map (fun c => KWord "catch" :: wtoks (fst (fst c)) ++ otoks params_toks (snd (fst c)) ++ ctoks (snd c)) clauses
  end.

Ltac seqb := repeat match goal with H : (?a =?s ?b) = true |- _ => apply String.eqb_eq in H; subst end.

(** ** Variables *)

Lemma exp_lexed' : forall tab ind e, exp_spelled e = true -> lxs tightn (xtext tab ind e) (xtoks e).
Proof. intros tab ind e H. unfold exp_spelled in H. andb. now apply exp_lexed. Qed.
Lemma type_lexed : forall tab ind e, type_spelled e = true -> lxs tightn (xtext tab ind e) (xtoks e).
Proof. intros tab ind e H. unfold type_spelled in H. andb. now apply exp_lexed. Qed.

Lemma id_lexed : forall tab ind e, path_spelled e = true -> lxs tight (xtext tab ind e) (id_toks e).
Proof. intros tab ind [] H; try discriminate H. cbn [xtext id_toks]. now apply path_lexed. Qed.

Lemma override_lexed : forall tab ind o, maybe (forallb path_spelled) o = true -> lxs tightn (override_text tab ind o) (override_toks o).
Proof.
  intros tab ind [[|e l]|] H; unfold override_text, override_toks; [| |apply lxs_nil].
  - apply tight_lxs. change " override" with (String.append " " "override"). change [KWord "override"] with ([] ++ [KWord "override"]). lnext. now apply wordy_lexed.
  - unfold cat. cbn [fold_right]. lend. cbn [maybe] in H. rewrite forallb_forall in H.
    change (KWord "override" :: KSym "(" :: commas (map id_toks (e :: l)) ++ [KSym ")"]) with ([KWord "override"; KSym "("] ++ (commas (map id_toks (e :: l)) ++ [KSym ")"])). lnext.
    apply any_lxs. ltightn; [|lit]. apply lxs_commas. intros x Hx. apply tight_lxs, id_lexed. now apply H.
Qed.
Lemma override_soft : forall tab ind o, soft tightn (override_text tab ind o).
Proof. intros tab ind [[|e l]|]; reflexivity. Qed.

Lemma value_lexed : forall tab ind o, maybe exp_spelled o = true ->
  lxs tightn (otext o (fun e => String.append " = " (xtext tab ind e))) (value_toks o).
Proof.
  intros tab ind [e|] H; [|apply lxs_nil]. cbn [otext value_toks otoks]. change (KSym "=" :: xtoks e) with ([KSym "="] ++ xtoks e). lnext. now apply exp_lexed'.
Qed.
Lemma value_soft : forall tab ind o, soft tightn (otext o (fun e => String.append " = " (xtext tab ind e))).
Proof. intros tab ind [e|]; reflexivity. Qed.

Lemma soft_lexed : forall s1 t1 s2 t2, lxs tight s1 t1 -> lxs tightn s2 t2 -> soft tightn s2 -> lxs tightn (String.append s1 s2) (t1 ++ t2).
Proof. intros s1 t1 s2 t2 A B H. apply lxs_soft; [now apply tight_lxs|exact B|exact H]. Qed.

Lemma var_lexed : forall tab ind v, var_spelled v = true -> maybe exp_spelled (sv_value v) = true -> lxs tightn (var_text tab ind v) (var_toks v).
Proof.
  intros tab ind v H V. unfold var_spelled in H. andb. unfold var_text, var_toks, word_toks, cat. cbn [fold_right]. lend. rewrite <- !app_assoc.
  repeat (apply soft_app || apply lxs_soft);
    first [apply spaced_soft|apply flagged_soft|apply override_soft|apply value_soft
          |now apply type_lexed|now apply override_lexed|now apply value_lexed|apply tight_lxs, flagged_lexed; reflexivity|apply tight_lxs, spaced_lexed].
  - match goal with K : smem _ [""; "public"; "private"] = true |- _ => apply smem_In in K; destruct K as [<-|[<-|[<-|[]]]]; reflexivity end.
  - eapply blank_smem; [|eassumption]. reflexivity.
  - now apply blank_name.
Qed.

Lemma param_lexed : forall tab ind v, param_spelled v = true -> lxs tightn (var_text tab ind v) (var_toks v).
Proof. intros tab ind v H. unfold param_spelled in H. andb. apply var_lexed; [assumption|]. now destruct (sv_value v). Qed.
Lemma local_param : forall v, local_spelled v = true -> param_spelled v = true.
Proof. intros v H. unfold local_spelled in H. andb. assumption. Qed.

Lemma params_lexed : forall tab ind l, forallb param_spelled l = true -> lxs any (params_text tab ind l) (params_toks l).
Proof.
  intros tab ind l H. unfold params_text, params_toks, cat. cbn [fold_right]. lend. rewrite forallb_forall in H.
  change (KSym "(" :: commas (map var_toks l) ++ [KSym ")"]) with ([KSym "("] ++ (commas (map var_toks l) ++ [KSym ")"])). lnext.
  ltightn; [|lit]. apply lxs_commas. intros x Hx. apply param_lexed. auto.
Qed.

(** ** Statements *)

Ltac napp := repeat first [rewrite <- app_assoc|progress cbn [app]].
(** The tokens are worked out along the way. *)
Ltac lopen := eapply lxs_eq.
Ltac lclose := cbn [app]; napp; rewrite ?app_nil_r; reflexivity.
Ltac lexp := ltightn; [now apply exp_lexed'|].
Ltac lstep := first
  [ eapply lxs_lit; [apply margin_lexed|] | eapply lxs_lit; [apply newline_lexed|] | eapply lxs_lit; [eassumption|] | eapply lxs_lit; [lit|] ].

(** The outermost concatenation only. *)
Ltac ocat := match goal with |- lxs _ (cat ?l) _ => let x := eval cbn [fold_right] in (fold_right String.append "" l) in change (cat l) with x end; rewrite ?append_nil_s.

Lemma deep_lexed : forall tab ind s ts, lxs any s ts -> lxs any (cat [newline; margin tab (ind + 1); s]) ts.
Proof.
  intros tab ind s ts H. unfold cat. cbn [fold_right]. lend. lopen; [lstep; lstep; exact H|lclose].
Qed.

Lemma some_exp_lexed : forall tab ind o, maybe exp_spelled o = true -> lxs tightn (otext o (fun e => String " " (xtext tab ind e))) (otoks xtoks o).
Proof.
  intros tab ind [e|] H; [|apply lxs_nil]. cbn [otext otoks]. change (String " " (xtext tab ind e)) with (String.append " " (xtext tab ind e)).
  lopen; [lstep; now apply exp_lexed'|lclose].
Qed.

Lemma lxs_lines : forall {A} (f : A -> string) (g : A -> list token) sep l, lxs any sep [] ->
  (forall x, In x l -> lxs any (f x) (g x)) -> lxs any (sjoin sep (map f l)) (flat_map g l).
Proof.
  intros A f g sep l S H. induction l as [|a l IH]; [apply lxs_nil|]. specialize (IH (fun x Hx => H x (or_intror Hx))). specialize (H a (or_introl eq_refl)).
  destruct l as [|b l]; cbn [map].
  - cbn [flat_map]. rewrite app_nil_r. exact H.
  - rewrite join_cons. cbn [flat_map]. lopen; [eapply lxs_lit; [exact H|]; eapply lxs_lit; [exact S|exact IH]|reflexivity].
Qed.
Lemma lxs_cat : forall {A} (f : A -> string) (g : A -> list token) l,
  (forall x, In x l -> lxs any (f x) (g x)) -> lxs any (cat (map f l)) (flat_map g l).
Proof.
  intros A f g l H. induction l as [|a l IH]; [apply lxs_nil|]. cbn [map]. unfold cat in *. cbn [fold_right flat_map]. 
  apply lxs_lit; [apply H; now left|]. apply IH. intros x Hx. apply H. now right.
Qed.

Lemma holes_one : forall (f : svar -> string) v, holes (map (option_map f) [Some v]) = f v.
Proof. intros. cbn. unfold cat. cbn [fold_right]. now rewrite !append_nil_s. Qed.

Theorem stmt_lexed : forall tab s ind, stmt_spelled s = true -> lxs any (ctext tab ind s) (ctoks s).
Proof.
  intros tab s. induction s using sstmt_ind'; intros ind Sp; cbn [stmt_spelled] in Sp; cbn [ctext ctoks].
  - lopen; [lexp; lit|lclose].
  - assert (K : forallb (maybe local_spelled) l = true /\ maybe exp_spelled e = true).
    { destruct l as [|[v|] [|o l]]; andb; try discriminate; try (split; [assumption|]; destruct e; [assumption|discriminate]).
      split; [|assumption]. cbn. now rewrite H. }
    destruct K as (K1 & K2). ocat. rewrite forallb_forall in K1.
    assert (L : lxs tightn (holes (map (option_map (var_text tab ind)) l)) (commas (map (otoks var_toks) l))).
    { apply lxs_holes. intros v Hv. apply param_lexed, local_param. exact (K1 _ Hv). }
    assert (L2 : lxs any (String.append (otext e (fun e => String.append " = " (xtext tab ind e))) ";") (value_toks e ++ [KSym ";"])).
    { ltightn; [now apply value_lexed|lit]. }
    assert (Hs : headed tightn (String.append (otext e (fun e => String.append " = " (xtext tab ind e))) ";")) by (apply headed_soft; [apply value_soft|hdd]).
    eapply (lxs_headed tightn); [|exact L2|exact Hs]. destruct (Nat.ltb 1 (List.length l)); [|exact L]. unfold paren, cat. cbn [fold_right]. lend. apply any_lxs.
    lopen; [lstep; ltightn; [exact L|lit]|lclose].
  - rewrite forallb_forall in Sp. rewrite Forall_forall in H. ocat.
    assert (B : lxs any (String.append "{" (String.append match l with [] => "" | _ => cat [newline; sjoin newline (map (fun s => String.append (margin tab (ind + 1)) (ctext tab (ind + 1) s)) l); newline; margin tab ind] end "}"))
      (KSym "{" :: flat_map ctoks l ++ [KSym "}"])).
    { destruct l as [|s l]; [lit|]. set (m := s :: l) in *.
      assert (L : lxs any (sjoin newline (map (fun s => String.append (margin tab (ind + 1)) (ctext tab (ind + 1) s)) m)) (flat_map ctoks m)).
      { apply lxs_lines; [apply newline_lexed|]. intros x Hx. change (ctoks x) with ([] ++ ctoks x). eapply lxs_lit; [apply margin_lexed|]. apply H; auto. }
      lopen; [lstep; eapply lxs_lit; [ocat; lstep; eapply lxs_lit; [exact L|]; lstep; apply margin_lexed|lit]|lclose]. }
    destruct u; [|exact B]. lopen; [lstep; exact B|lclose].
  - andb. ocat.
    assert (Y : lxs any (if is_cblock s then ctext tab ind s else
      match b with
      | Some _ => if open_if s then cat ["{"; cat [newline; margin tab (ind + 1); ctext tab (ind + 1) s]; newline; margin tab ind; "}"]
                  else cat [newline; margin tab (ind + 1); ctext tab (ind + 1) s]
      | None => cat [newline; margin tab (ind + 1); ctext tab (ind + 1) s]
      end) (ctoks s)).
    { destruct (is_cblock s) eqn:E; [auto|]. destruct b; [|now apply deep_lexed, IHs]. andb. cbn [orb] in *.
      match goal with K : negb (open_if s) = true |- _ => apply negb_true_iff in K; rewrite K end. now apply deep_lexed, IHs. }
    assert (No : lxs any match b with
      | Some no => if is_cblock no then String.append " else " (ctext tab ind no)
                   else cat [newline; margin tab ind; "else"; cat [newline; margin tab (ind + 1); ctext tab (ind + 1) no]]
      | None => "" end match b with Some no => KWord "else" :: ctoks no | None => [] end).
    { destruct b as [n|]; [|apply lxs_nil]. andb. cbn in H. destruct (is_cblock n).
      - lopen; [lstep; apply H; assumption|lclose].
      - ocat. lopen; [lstep; lstep; eapply (lxs_headed tight); [now apply (wordy_lexed "else")|apply deep_lexed, H; assumption|hdd]|lclose]. }
    lopen; [lstep; lexp; lstep; eapply lxs_lit; [exact Y|exact No]|lclose].
  - andb. ocat. lopen; [lstep; lexp; lstep; apply IHs; assumption|lclose].
  - andb. ocat. lopen; [lstep; eapply lxs_lit; [apply IHs; assumption|]; lstep; lexp; lit|lclose].
  - andb. ocat.
    assert (I : lxs any match i with Some s => ctext tab ind s | None => ";" end match i with Some s => ctoks s | None => [KSym ";"] end).
    { destruct i as [x|]; [|lit]. andb. apply H. assumption. }
    assert (B : lxs any (if is_cblock s then String " " (ctext tab ind s) else cat [newline; margin tab (ind + 1); ctext tab (ind + 1) s]) (ctoks s)).
    { destruct (is_cblock s); [|now apply deep_lexed, IHs]. change (String " " (ctext tab ind s)) with (String.append " " (ctext tab ind s)).
      change (ctoks s) with ([] ++ ctoks s). lstep. auto. }
    lopen; [lstep; eapply lxs_lit; [exact I|]; ltightn; [apply some_exp_lexed; assumption|]; lstep; ltightn; [apply some_exp_lexed; assumption|]; lstep; exact B|].
    lclose.
  - ocat. lopen; [eapply (lxs_headed tight); [now apply (wordy_lexed "return")|ltightn; [now apply some_exp_lexed|lit]|]|lclose]. destruct e; hdd.
  - ocat. lopen; [lstep; lexp; lit|lclose].
  - andb. ocat. lopen; [lstep; lexp; lit|lclose].
  - apply smem_In in Sp. destruct Sp as [<-|[<-|[<-|[]]]]; lit.
  - andb. ocat. rewrite Forall_forall in H.
    match goal with K : forallb _ cs = true |- _ => rewrite forallb_forall in K; rename K into Hc end.
    assert (R : lxs any match rs with [] => " " | _ => cat [" returns "; params_text tab ind rs; " "] end (returns_toks rs)).
    { destruct rs as [|v rs]; [lit|]. ocat. unfold returns_toks. lopen; [lstep; eapply lxs_lit; [now apply params_lexed|lit]|lclose]. }
    lopen; [lstep; eapply (lxs_headed tightn); [now apply exp_lexed'|eapply lxs_lit; [exact R|]; eapply lxs_lit; [apply IHs; assumption|]; lstep; apply lxs_cat|]|lclose].
    2: destruct rs; hdd.
    intros c Hc0. specialize (Hc c Hc0). specialize (H c Hc0). destruct c as ((x, o), b). cbn [fst snd] in *. andb. ocat.
    assert (B : lxs any (String.append (ctext tab ind b) " ") (ctoks b)) by (lopen; [eapply lxs_lit; [apply H; assumption|lit]|lclose]).
    lopen; [lstep|].
    + instantiate (1 := wtoks x ++ otoks params_toks o ++ ctoks b). destruct o as [ps|].
      * andb. cbn [otext otoks]. eapply (lxs_headed tightn).
        -- unfold wtoks, blank_or in *. destruct (x =?s "") eqn:E; [seqb|]. 1: apply lxs_nil. apply tight_lxs, wordy_lexed, name_wordy. assumption.
        -- lopen; [eapply lxs_lit; [eapply lxs_lit; [now apply params_lexed|lit]|exact B]|lclose].
        -- hdd.
      * seqb. exact B.
    + lclose.
Qed.
