(** The tokens of the text of a Vyper program: expressions. *)
From Coq Require Import String Ascii List NArith ZArith Bool Lia.
From Verif Require Import Base Json SpecLiteral SpecVyText SpecVyRead PathFacts VyText VyReadLex.
Import ListNotations.
Open Scope string_scope.
Open Scope list_scope.

(** ** The tokens of an expression *)

Fixpoint tjoin (sep : list tok) (l : list (list tok)) : list tok :=
  match l with
  | [] => []
  | [a] => a
  | a :: l => a ++ sep ++ tjoin sep l
  end.

Definition ptoks (b : bool) (l : list tok) : list tok := if b then TSym "(" :: l ++ [TSym ")"] else l.

Definition op_tokens (op : string) : list tok :=
  if op =?s "in" then [TWord "in"] else if op =?s "not in" then [TWord "not"; TWord "in"] else [TSym op].

Fixpoint vtoks (e : vexp) : list tok :=
  let at_least k e := ptoks (Nat.ltb (binding e) k) (vtoks e) in
  match e with
  | VName x => [TWord x]
  | VInt z => int_tokens z
  | VVerbatim _ s => [TNum s]
  | VStr s => [TText s]
  | VBytes bs => [TData bs]
  | VConst (Some true) => [TWord "True"]
  | VConst (Some false) => [TWord "False"]
  | VConst None => [TWord "None"]
  | VBin op a b => at_least (left_side op) a ++ TSym op :: at_least 3 b
  | VCmp op a b => at_least 3 a ++ op_tokens op ++ at_least 3 b
  | VLogic both a b more =>
      tjoin [TWord (if both then "and" else "or")] (at_least 2 a :: at_least 2 b :: map (fun e => at_least 2 e) more)
  | VNot a => TWord "not" :: at_least 2 a
  | VInvert a => TSym "~" :: at_least 3 a
  | VNeg a => TSym "-" :: at_least 3 a
  | VAttr a x => at_least 5 a ++ [TSym "."; TWord x]
  | VSub a i more => at_least 5 a ++ TSym "[" :: tjoin [TSym ","] (map vtoks (i :: more)) ++ [TSym "]"]
  | VCall f args kws =>
      at_least 5 f ++ TSym "(" ::
      tjoin [TSym ","] (map vtoks args ++ map (fun kv => TWord (fst kv) :: TSym "=" :: vtoks (snd kv)) kws) ++ [TSym ")"]
  | VList l => TSym "[" :: tjoin [TSym ","] (map vtoks l) ++ [TSym "]"]
  | VTuple [e] => TSym "(" :: vtoks e ++ [TSym ","; TSym ")"]
  | VTuple l => TSym "(" :: tjoin [TSym ","] (map vtoks l) ++ [TSym ")"]
  | VDict l => TSym "{" :: tjoin [TSym ","] (map (fun kv => vtoks (fst kv) ++ TSym ":" :: vtoks (snd kv)) l) ++ [TSym "}"]
  end.

(** ** How texts begin *)

Definition hd (c : ascii) : bool :=
  letter c || digit c || Ascii.eqb c """" || Ascii.eqb c "(" || Ascii.eqb c "[" || Ascii.eqb c "{" || Ascii.eqb c "-" || Ascii.eqb c "~".

Lemma headed_app : forall p s r, headed p s -> headed p (String.append s r).
Proof. intros p s r (c & t & -> & H). exists c, (String.append t r). split; [reflexivity|exact H]. Qed.

Lemma headed_paren : forall b s, headed hd s -> headed hd (paren b s).
Proof. intros [] s H; [|exact H]. exists "("%char, (String.append s ")"). split; reflexivity. Qed.

Lemma ident_headed : forall x, ident x = true -> headed hd x.
Proof.
  intros [|c x] H; [discriminate|]. cbn in H. apply andb_true_iff in H. exists c, x. split; [reflexivity|].
  unfold hd. now rewrite (proj1 H).
Qed.

Lemma digits_headed : forall x, digits x = true -> headed hd x.
Proof.
  intros [|c x] H; [discriminate|]. unfold digits in H. apply andb_true_iff in H. destruct H as (_ & H). cbn [every] in H.
  apply andb_true_iff in H. exists c, x. split; [reflexivity|]. unfold hd. now rewrite (proj1 H), orb_true_r.
Qed.

Ltac andb := repeat match goal with H : _ && _ = true |- _ => apply andb_true_iff in H; destruct H end.

Lemma exp_headed : forall tab e ind, spelled e = true -> headed hd (vtext tab ind e).
Proof.
  intros tab e. induction e using vexp_ind'; intros ind Sp; cbn [spelled] in Sp; andb; cbn [vtext];
    try (eexists _, _; split; [reflexivity|reflexivity]); unfold cat; cbn [fold_right].
  - apply ident_headed, name_ident, Sp.
  - destruct z as [|p|p]; try (apply digits_headed, show_digits). eexists _, _. split; reflexivity.
  - destruct h.
    + destruct (hex_parts _ Sp) as (b & -> & _). eexists _, _. split; reflexivity.
    + destruct (decimal_parts _ Sp) as (a & b & -> & H & _). apply headed_app, digits_headed, H.
  - destruct b as [[]|]; eexists _, _; split; reflexivity.
  - apply headed_app, headed_paren. auto.
  - apply headed_app, headed_paren. auto.
  - unfold sjoin. cbn [String.concat]. apply headed_app, headed_paren. auto.
  - apply headed_app, headed_paren. auto.
  - apply headed_app, headed_paren. auto.
  - apply headed_app, headed_paren. auto.
  - destruct l as [|? [|? ?]]; eexists _, _; split; reflexivity.
  - destruct l as [|? ?]; eexists _, _; split; reflexivity.
Qed.

(** ** The text of an expression gives its tokens *)

Lemma lxs_lit : forall q d s1 t1 d1 s2 t2 d2, lxs any d s1 t1 d1 -> lxs q d1 s2 t2 d2 ->
  lxs q d (String.append s1 s2) (t1 ++ t2) d2.
Proof. intros q d s1 t1 d1 s2 t2 d2 A B. eapply lxs_cat; [exact A|exact B|]. now right; right. Qed.

Lemma lxs_end : forall p q d s ts d', lxs p d s ts d' -> (forall c, q c = true -> p c = true) ->
  lxs q d (String.append s "") ts d'.
Proof. intros p q d s ts d' L H. rewrite append_nil_s. exact (lxs_weak p q d s ts d' H L). Qed.

Lemma lxs_word : forall d s1 t1 d1 s2 q t2 d2, lxs delim d s1 t1 d1 -> lxs q d1 s2 t2 d2 -> headed delim s2 ->
  lxs q d (String.append s1 s2) (t1 ++ t2) d2.
Proof. intros. eapply lxs_cat; [eassumption|eassumption|]. now left. Qed.

Lemma lxs_tight : forall d s1 t1 d1 s2 q t2 d2, lxs tight d s1 t1 d1 -> lxs q d1 s2 t2 d2 -> headed tight s2 ->
  lxs q d (String.append s1 s2) (t1 ++ t2) d2.
Proof. intros. eapply lxs_cat; [eassumption|eassumption|]. now left. Qed.

Ltac hdd := eexists _, _; split; reflexivity.

Lemma join_cons : forall sep a b l, sjoin sep (a :: b :: l) = String.append a (String.append sep (sjoin sep (b :: l))).
Proof. reflexivity. Qed.

Lemma lxs_join : forall d sep c sepr sept ss tss, sep = String c sepr -> delim c = true -> lxs any d sep sept d ->
  Forall2 (fun s ts => lxs delim d s ts d) ss tss -> lxs delim d (sjoin sep ss) (tjoin sept tss) d.
Proof.
  intros d sep c sepr sept ss tss E D L F. induction F as [|s ts ss tss H F IH]; [apply lxs_nil|].
  destruct F as [|s2 ts2 ss tss H2 F].
  - exact H.
  - rewrite join_cons. cbn [tjoin]. eapply lxs_cat; [exact H| |].
    + eapply lxs_lit; [exact L|exact IH].
    + left. rewrite E. eexists _, _. split; [reflexivity|exact D].
Qed.

Lemma spaces_lexed : forall n d, lxs any d (spaces n) [] d.
Proof.
  intros n d. induction n as [|n IH]; [apply lxs_nil|]. intros rest H. cbn [spaces String.append].
  eapply lx_skip; [reflexivity|]. exact (IH rest H).
Qed.

Definition follow (e : vexp) : ascii -> bool := if Nat.leb 5 (binding e) then tight else delim.

Lemma paren_lexed : forall p d s ts (b : bool), lxs p d s ts d -> lxs delim (S d) s ts (S d) -> lxs (if b then any else p) d (paren b s) (ptoks b ts) d.
Proof.
  intros p d s ts [] H K; [|exact H]. unfold paren, ptoks.
  change (TSym "(" :: ts ++ [TSym ")"]) with ([TSym "("] ++ (ts ++ [TSym ")"])). eapply lxs_lit; [lit|].
  eapply (lxs_word (S d) _ _ (S d)); [exact K|lit|hdd].
Qed.

Lemma follow_delim : forall e d s ts d', lxs (follow e) d s ts d' -> lxs delim d s ts d'.
Proof. intros e d s ts d' L. unfold follow in L. destruct (Nat.leb 5 (binding e)); [apply delim_tight|]; exact L. Qed.

Definition lexed (tab : N) (e : vexp) : Prop :=
  forall ind d, lxs (follow e) d (vtext tab ind e) (vtoks e) d.

Lemma at_least_lexed : forall tab e k ind d, lexed tab e -> 
  lxs delim d (paren (Nat.ltb (binding e) k) (vtext tab ind e)) (ptoks (Nat.ltb (binding e) k) (vtoks e)) d.
Proof.
  intros tab e k ind d H. pose proof (paren_lexed (follow e) d _ _ (Nat.ltb (binding e) k) (H ind d) (follow_delim _ _ _ _ _ (H ind (S d)))) as L.
  destruct (Nat.ltb (binding e) k); [exact (any_lxs _ _ _ _ _ L)|exact (follow_delim _ _ _ _ _ L)].
Qed.

Lemma at_least5_lexed : forall tab e ind d, lexed tab e ->
  lxs tight d (paren (Nat.ltb (binding e) 5) (vtext tab ind e)) (ptoks (Nat.ltb (binding e) 5) (vtoks e)) d.
Proof.
  intros tab e ind d H. pose proof (paren_lexed (follow e) d _ _ (Nat.ltb (binding e) 5) (H ind d) (follow_delim _ _ _ _ _ (H ind (S d)))) as L.
  destruct (Nat.ltb (binding e) 5) eqn:B; [exact (any_lxs _ _ _ _ _ L)|].
  unfold follow in L. apply Nat.ltb_ge in B. apply Nat.leb_le in B. rewrite B in L. exact L.
Qed.

Lemma binary_lexed : forall op d, smem op (map snd binary_symbols) = true ->
  lxs any d (String " " (String.append op " ")) [TSym op] d.
Proof.
  intros op d H. apply smem_true_In in H. cbn in H.
  repeat (destruct H as [<-|H]; [lit|]). destruct H.
Qed.

Lemma compare_lexed : forall op d, smem op (map snd compare_symbols) = true ->
  lxs any d (String " " (String.append op " ")) (op_tokens op) d.
Proof.
  intros op d H. apply smem_true_In in H. cbn in H.
  repeat (destruct H as [<-|H]; [unfold op_tokens; cbn; lit|]). destruct H.
Qed.

Lemma map_Forall2 : forall {A B C} (R : B -> C -> Prop) (f : A -> B) (g : A -> C) l,
  Forall (fun a => R (f a) (g a)) l -> Forall2 R (map f l) (map g l).
Proof. induction 1; constructor; assumption. Qed.

Lemma sub_lexed : forall tab l ind d, Forall (fun e => spelled e = true -> lexed tab e) l -> forallb spelled l = true ->
  Forall2 (fun s ts => lxs delim d s ts d) (map (vtext tab ind) l) (map vtoks l).
Proof.
  intros tab l ind d F Sp. apply map_Forall2. induction F as [|e l H F IH]; [constructor|]. cbn in Sp. andb.
  constructor; [|auto]. apply follow_delim with e. apply H. assumption.
Qed.

Lemma tuple_text : forall tab ind l, (forall e, l <> [e]) -> vtext tab ind (VTuple l) = cat ["("; sjoin ", " (map (vtext tab ind) l); ")"].
Proof. intros tab ind [|e [|e2 l]] H; [reflexivity| |reflexivity]. destruct (H e eq_refl). Qed.
Lemma tuple_toks : forall l, (forall e, l <> [e]) -> vtoks (VTuple l) = TSym "(" :: tjoin [TSym ","] (map vtoks l) ++ [TSym ")"].
Proof. intros [|e [|e2 l]] H; [reflexivity| |reflexivity]. destruct (H e eq_refl). Qed.
Lemma dict_text : forall tab ind l, l <> [] -> vtext tab ind (VDict l) =
      cat ["{"; newline;
           sjoin (String.append "," newline)
             (map (fun kv => cat [margin tab (ind + 1); vtext tab (ind + 1) (fst kv); ": "; vtext tab (ind + 1) (snd kv)]) l);
           newline; margin tab ind; "}"].
Proof. intros tab ind [|e l] H; [congruence|reflexivity]. Qed.

Lemma exp_lexed : forall tab e, spelled e = true -> lexed tab e.
Proof.
  intros tab e. induction e using vexp_ind'; intros Sp ind d; cbn [spelled] in Sp; andb; unfold follow; cbn [binding Nat.leb].
  - apply ident_lexed, name_ident, Sp.
  - cbn [vtext vtoks]. destruct (z <? 0)%Z; apply int_lexed.
  - cbn [vtext vtoks]. destruct h; [apply hex_lexed|apply decimal_lexed]; exact Sp.
  - apply any_lxs. apply text_lexed, Sp.
  - apply any_lxs. apply data_lexed.
  - cbn [vtext vtoks]. destruct b as [[]|]; apply ident_lexed; reflexivity.
  - cbn [vtext vtoks]. unfold cat. cbn [fold_right]. eapply lxs_word; [apply at_least_lexed; auto| |hdd].
    change (TSym op :: ?l) with ([TSym op] ++ l).
    match goal with |- lxs _ _ ?s _ _ => replace s
      with (String.append (String " " (String.append op " ")) (paren (Nat.ltb (binding e2) 3) (vtext tab ind e2)))
      by (cbn [String.append]; rewrite append_nil_s, append_assoc; reflexivity) end.
    eapply lxs_lit; [apply binary_lexed; assumption|apply at_least_lexed; auto].
  - cbn [vtext vtoks]. unfold cat. cbn [fold_right]. eapply lxs_word; [apply at_least_lexed; auto| |hdd].
    match goal with |- lxs _ _ ?s _ _ => replace s
      with (String.append (String " " (String.append op " ")) (paren (Nat.ltb (binding e2) 3) (vtext tab ind e2)))
      by (cbn [String.append]; rewrite append_nil_s, append_assoc; reflexivity) end.
    eapply lxs_lit; [apply compare_lexed; assumption|apply at_least_lexed; auto].
  - cbn [vtext vtoks].
    eapply (lxs_join d (if both then " and " else " or ") " " (if both then "and " else "or ")); [destruct both; reflexivity|reflexivity| |].
    + destruct both; lit.
    + constructor; [apply at_least_lexed; auto|]. constructor; [apply at_least_lexed; auto|].
      apply map_Forall2. match goal with K : forallb _ more = true |- _ => rewrite forallb_forall in K end.
      rewrite Forall_forall in *. intros e He. apply at_least_lexed; auto.
  - cbn [vtext vtoks]. unfold cat. cbn [fold_right]. rewrite append_nil_s. change (TWord "not" :: ?l) with ([TWord "not"] ++ l).
    eapply lxs_lit; [lit|]. apply at_least_lexed; auto.
  - cbn [vtext vtoks]. unfold cat. cbn [fold_right]. rewrite append_nil_s. change (TSym "~" :: ?l) with ([TSym "~"] ++ l).
    eapply lxs_lit; [lit|]. apply at_least_lexed; auto.
  - cbn [vtext vtoks]. unfold cat. cbn [fold_right]. rewrite append_nil_s.
    intros rest R. cbn [String.append]. destruct (headed_paren (Nat.ltb (binding e) 3) _ (exp_headed tab e ind ltac:(assumption))) as (c & r & E & Hc).
    eapply lx_tok; [|exact (at_least_lexed tab e 3 ind d (IHe ltac:(assumption)) rest R)]. rewrite E. cbn [String.append].
    assert (Q : forall c, hd c = true -> negb (Ascii.eqb ">" c) && negb (Ascii.eqb "=" c) = true)
      by (apply imp_chars; vm_compute; reflexivity).
    specialize (Q c Hc). apply andb_true_iff in Q. destruct Q as (Q1 & Q2). apply negb_true_iff in Q1, Q2.
    apply sign_first; assumption.
  - cbn [vtext vtoks]. unfold cat. cbn [fold_right]. eapply lxs_tight; [apply at_least5_lexed; auto| |hdd].
    change (lxs tight d (String.append "." (String.append x "")) ([TSym "."] ++ [TWord x]) d).
    eapply lxs_lit; [lit|]. rewrite append_nil_s. now apply ident_lexed.
  - cbn [vtext vtoks]. unfold cat. cbn [fold_right]. eapply lxs_tight; [apply at_least5_lexed; auto| |hdd].
    change (TSym "[" :: ?l) with ([TSym "["] ++ l). eapply lxs_lit; [lit|].
    eapply (lxs_word (S d) _ _ (S d)); [|apply any_lxs; lit|hdd].
    eapply (lxs_join _ ", " "," " "); [reflexivity|reflexivity|lit|].
    apply sub_lexed; [constructor; assumption|]. cbn. apply andb_true_iff. split; assumption.
  - cbn [vtext vtoks]. unfold cat at 1. cbn [fold_right]. eapply lxs_tight; [apply at_least5_lexed; auto| |hdd].
    change (TSym "(" :: ?l) with ([TSym "("] ++ l). eapply lxs_lit; [lit|].
    eapply (lxs_word (S d) _ _ (S d)); [|apply any_lxs; lit|hdd].
    eapply (lxs_join _ ", " "," " "); [reflexivity|reflexivity|lit|].
    apply Forall2_app; [apply sub_lexed; assumption|]. apply map_Forall2.
    match goal with K : forallb _ kws = true |- _ => rewrite forallb_forall in K; rename K into Hk end.
    rewrite Forall_forall in *. intros (k & v) Hv. specialize (Hk _ Hv). match goal with K : forall x, In x kws -> _ |- _ => specialize (K _ Hv); rename K into Iv end.
    cbn [fst snd] in *. andb. unfold cat. cbn [fold_right].
    change (TWord k :: TSym "=" :: vtoks v) with ([TWord k] ++ TSym "=" :: vtoks v).
    eapply lxs_word; [apply delim_tight, ident_lexed, name_ident; assumption| |hdd].
    rewrite append_nil_s. intros rest R. cbn [String.append].
    destruct (exp_headed tab v ind ltac:(assumption)) as (c & r & E & Hc).
    eapply lx_tok; [|exact (follow_delim v _ _ _ _ (Iv ltac:(assumption) ind _) rest R)]. rewrite E. cbn [String.append].
    apply equal_first. apply negb_true_iff. revert c Hc E. clear. intros c Hc _. revert c Hc. apply imp_chars. vm_compute. reflexivity.
  - cbn [vtext vtoks]. unfold cat. cbn [fold_right].
    change (TSym "[" :: ?l) with ([TSym "["] ++ l). eapply lxs_lit; [lit|].
    eapply (lxs_word (S d) _ _ (S d)); [|apply any_lxs; lit|hdd].
    eapply (lxs_join _ ", " "," " "); [reflexivity|reflexivity|lit|]. apply sub_lexed; assumption.
  - destruct l as [|e [|e2 l]].
    + apply any_lxs. lit.
    + cbn [vtext vtoks]. unfold cat. cbn [fold_right]. change (TSym "(" :: ?l) with ([TSym "("] ++ l). eapply lxs_lit; [lit|].
      inversion H as [|? ? He _]. cbn in Sp. andb. eapply (lxs_word (S d) _ _ (S d)); [|apply any_lxs; lit|hdd].
      apply follow_delim with e. apply He. assumption.
    + rewrite tuple_text, tuple_toks by discriminate. unfold cat. cbn [fold_right].
      change (TSym "(" :: ?l) with ([TSym "("] ++ l). eapply lxs_lit; [lit|].
      eapply (lxs_word (S d) _ _ (S d)); [|apply any_lxs; lit|hdd].
      eapply (lxs_join _ ", " "," " "); [reflexivity|reflexivity|lit|]. apply sub_lexed; assumption.
  - destruct l as [|kv l]; [apply any_lxs; lit|]. rewrite dict_text by discriminate. cbn [vtoks]. revert H Sp. generalize (kv :: l). clear kv l.
    intros l H Sp. unfold cat at 1. cbn [fold_right].
    change (TSym "{" :: ?l) with ([TSym "{"] ++ l). eapply lxs_lit; [lit|].
    change (?a ++ [TSym "}"]) with ([] ++ (a ++ [TSym "}"])). eapply lxs_lit; [unfold newline; lit|].
    eapply (lxs_word (S d) _ _ (S d)); [| |].
    + eapply (lxs_join _ (String.append "," newline) "," newline); [reflexivity|reflexivity|unfold newline; lit|].
      apply map_Forall2. rewrite Forall_forall in *. rewrite forallb_forall in Sp. intros (k & v) Hv.
      specialize (Sp _ Hv). specialize (H _ Hv). cbn [fst snd] in *. andb. destruct H as (Hk & Hw). unfold cat. cbn [fold_right].
      change (vtoks k ++ TSym ":" :: vtoks v) with ([] ++ (vtoks k ++ ([TSym ":"] ++ vtoks v))).
      eapply lxs_lit; [apply spaces_lexed|]. eapply lxs_word; [|eapply lxs_lit; [lit|]|hdd].
      * apply follow_delim with k. apply Hk. assumption.
      * rewrite append_nil_s. apply follow_delim with v. apply Hw. assumption.
    + change [TSym "}"] with ([] ++ ([] ++ [TSym "}"])). eapply lxs_lit; [lit|]. eapply lxs_lit; [apply spaces_lexed|]. apply any_lxs. lit.
    + hdd.
Qed.
