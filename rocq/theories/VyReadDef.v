(** Definitions and programs: their tokens, and reading these. *)
From Coq Require Import String Ascii List NArith ZArith Bool Lia.
From Verif Require Import Base Json SpecLiteral SpecVyText SpecVyRead PathFacts VyText VyTextStmt VyReadLex VyReadToks VyReadParse VyReadStmt.
Import ListNotations.
Open Scope string_scope.
Open Scope list_scope.

(** ** Tokens *)

Definition argtoks (a : varg) : list tok :=
  TWord (va_name a) :: otoks (va_type a) (fun e => TSym ":" :: vtoks e) ++ otoks (va_default a) (fun e => TSym "=" :: vtoks e).
Definition headtoks (f : string) (args : list varg) (ret : option vtop) : list tok :=
  TWord "def" :: TWord f :: TSym "(" :: tjoin [TSym ","] (map argtoks args) ++
  TSym ")" :: otoks ret (fun t => TSym "->" :: type_toks t) ++ [TSym ":"].

(** The parts of a dotted name. *)
Fixpoint pieces (s : string) : list string :=
  match s with
  | EmptyString => [""]
  | String c r => if Ascii.eqb c "." then "" :: pieces r else match pieces r with a :: l => String c a :: l | [] => [] end
  end.
Definition modtoks (m : string) : list tok := tjoin [TSym "."] (map (fun x => [TWord x]) (pieces m)).
Definition astoks (a : option string) : list tok := otoks a (fun x => [TWord "as"; TWord x]).

Definition wraptoks (b : bool) (w : string) (l : list tok) : list tok := if b then TWord w :: TSym "(" :: l ++ [TSym ")"] else l.

Definition dtoks (tab : N) (d : vdef) : list tok :=
  let block l := flat_map (fun s => TLine (depth tab 1) :: stoks tab 1 s) l in
  match d with
  | VdFun decs f args ret body =>
      flat_map (fun d => TSym "@" :: vtoks d ++ [TLine 0]) decs ++ headtoks f args ret ++ block body
  | VdVar x p c i ty e =>
      vtoks x ++ TSym ":" :: wraptoks p "public" (wraptoks c "constant" (wraptoks i "immutable" (type_toks ty))) ++
      otoks e (fun e => TSym "=" :: vtoks e)
  | VdFields kw f body | VdBlock kw f body => TWord kw :: TWord f :: TSym ":" :: block body
  | VdInterface f sigs =>
      TWord "interface" :: TWord f :: TSym ":" ::
      flat_map (fun g => TLine (depth tab 1) :: headtoks (vg_name g) (vg_args g) (vg_ret g) ++ vtoks (vg_body g)) sigs
  | VdImport m alias => TWord "import" :: modtoks m ++ astoks alias
  | VdFrom m x alias =>
      TWord "from" :: match m with Some m => modtoks m | None => [TSym "."] end ++ TWord "import" :: TWord x :: astoks alias
  end.

(** ** Lexing *)

Lemma pieces_ok : forall m, sjoin "." (pieces m) = m /\ pieces m <> [].
Proof.
  induction m as [|c m (IH & N)]; [split; [reflexivity|discriminate]|]. cbn [pieces]. destruct (Ascii.eqb c ".") eqn:E.
  - apply Ascii.eqb_eq in E. subst c. split; [|discriminate]. destruct (pieces m) as [|a l]; [congruence|].
    rewrite join_cons, IH. reflexivity.
  - destruct (pieces m) as [|a l]; [congruence|]. split; [|discriminate]. destruct l as [|b l].
    + cbn in *. now rewrite IH.
    + rewrite join_cons in *. rewrite <- IH. reflexivity.
Qed.

Lemma dots_ident : forall m, (dots true m = true -> Forall (fun x => ident x = true) (pieces m)) /\
  (dots false m = true -> match pieces m with a :: l => every wordchar a = true /\ Forall (fun x => ident x = true) l | [] => False end).
Proof.
  induction m as [|c m (IH1 & IH2)]; [split; [discriminate|intros _; split; [reflexivity|constructor]]|]. split; cbn [dots pieces]; intros H.
  - andb. replace (Ascii.eqb c ".") with false
      by (symmetry; apply negb_true_iff; revert H; generalize c; apply imp_chars; vm_compute; reflexivity).
    specialize (IH2 ltac:(assumption)). destruct (pieces m) as [|a l]; [destruct IH2|]. destruct IH2 as (W & F).
    constructor; [|exact F]. cbn. rewrite H. exact W.
  - destruct (Ascii.eqb c ".").
    + split; [reflexivity|]. now apply IH1.
    + andb. specialize (IH2 ltac:(assumption)). destruct (pieces m) as [|a l]; [destruct IH2|]. destruct IH2 as (W & F).
      split; [|exact F]. cbn. rewrite H. exact W.
Qed.

Lemma ident_delim : forall x d, ident x = true -> lxs delim d x [TWord x] d.
Proof. intros x d H. now apply delim_tight, ident_lexed. Qed.

Lemma mod_lexed : forall m d, dots true m = true -> lxs delim d m (modtoks m) d.
Proof.
  intros m d H. rewrite <- (proj1 (pieces_ok m)) at 1. unfold modtoks. pose proof (proj1 (dots_ident m) H) as F.
  destruct (pieces m) as [|a l]; [apply lxs_nil|]. revert a F. induction l as [|b l IH]; intros a F.
  - inversion F; subst. now apply ident_delim.
  - inversion F; subst. rewrite join_cons. cbn [map]. change (tjoin [TSym "."] ([TWord a] :: [TWord b] :: ?q)) with ([TWord a] ++ [TSym "."] ++ tjoin [TSym "."] ([TWord b] :: q)).
    eapply lxs_tight; [now apply ident_lexed| |hdd]. eapply lxs_lit; [lit|]. now apply (IH b).
Qed.

Lemma type_lexed : forall tab t ind d, spelled_type t = true -> lxs delim d (type_text tab ind t) (type_toks t) d.
Proof.
  intros tab [e|l] ind d H; cbn [type_text type_toks].
  - apply exp_delim. destruct e; first [exact H|discriminate].
  - cbn in H. andb. unfold cat. cbn [fold_right]. change (TSym "(" :: ?l) with ([TSym "("] ++ l). eapply lxs_lit; [lit|].
    eapply (lxs_word (S d) _ _ (S d)); [now apply list_lexed|apply any_lxs; lit|hdd].
Qed.

Lemma arg_lexed : forall tab a ind d, spelled_arg a = true -> lxs delim d (arg_text tab ind a) (argtoks a) d.
Proof.
  intros tab [x ty def] ind d H. unfold spelled_arg in H. cbn [va_name va_type va_default] in H. andb. unfold arg_text, argtoks, cat.
  cbn [va_name va_type va_default fold_right]. rewrite append_nil_s. change (TWord x :: ?l) with ([TWord x] ++ l).
  assert (E : forall e, spelled e = true -> lxs delim d (String.append "=" (vtext tab ind e)) (TSym "=" :: vtoks e) d).
  { intros e He rest R. cbn [String.append]. destruct (exp_headed tab e ind He) as (c & r & Q & Hc).
    eapply lx_tok; [|exact (exp_delim tab e ind d He rest R)]. rewrite Q. cbn [String.append]. apply equal_first.
    apply negb_true_iff. clear Q. revert Hc. generalize c. apply imp_chars. vm_compute. reflexivity. }
  destruct ty as [ty|], def as [e|]; cbn [otext otoks o_all] in *; rewrite ?append_nil_s, ?app_nil_r.
  - eapply lxs_word; [now apply ident_delim| |hdd]. cbn [app]. tk1. rewrite append_assoc. eapply lxs_lit; [lit|].
    eapply lxs_word; [now apply exp_delim|now apply E|hdd].
  - eapply lxs_word; [now apply ident_delim| |hdd]. tk1. eapply lxs_lit; [lit|]. now apply exp_delim.
  - eapply lxs_word; [now apply ident_delim|cbn [app String.append]; now apply E|hdd].
  - now apply ident_delim.
Qed.

Lemma head_lexed : forall tab f args ret ind, spelled_head f args ret = true -> lxs any 0 (head_text tab ind f args ret) (headtoks f args ret) 0.
Proof.
  intros tab f args ret ind H. unfold spelled_head in H. andb. unfold head_text, headtoks, cat. cbn [fold_right].
  tk1. eapply lxs_lit; [lit|]. tk1. eapply lxs_tight; [now apply ident_lexed| |hdd]. tk1. eapply lxs_lit; [lit|].
  eapply (lxs_word 1 _ _ 1).
  - eapply (lxs_join _ ", " "," " "); [reflexivity|reflexivity|lit|]. apply map_Forall2.
    match goal with Q : forallb spelled_arg args = true |- _ => rewrite forallb_forall in Q; apply Forall_forall; intros a Ha; now apply arg_lexed, Q end.
  - tk1. eapply lxs_lit; [lit|]. destruct ret as [t|]; cbn [otext otoks o_all] in *.
    + cbn [app]. tk1. rewrite append_assoc. eapply lxs_lit; [lit|]. eapply lxs_word; [now apply type_lexed|lit|hdd].
    + lit.
  - hdd.
Qed.

Lemma head_headed : forall tab f args ret ind, headed hd (head_text tab ind f args ret).
Proof. intros. unfold head_text, cat. cbn [fold_right]. hdd. Qed.

Lemma block_lexed : forall tab l, spelled_block l = true ->
  lxs eol 0 (String.append newline (block_text tab 1 l)) (flat_map (fun s => TLine (depth tab 1) :: stoks tab 1 s) l) 0 /\
  lxs eol 0 (String.append newline (cat (map (fun s => cat [margin tab 1; stext tab 1 s; newline]) l)))
            (flat_map (fun s => TLine (depth tab 1) :: stoks tab 1 s) l) 0.
Proof.
  intros tab l H. unfold spelled_block in H. andb.
  assert (L : lxs eol 0 (cat (map (fun s => String.append newline (String.append (spaces (depth tab 1)) (stext tab 1 s))) l))
                (flat_map (fun s => TLine (depth tab 1) :: stoks tab 1 s) l) 0).
  { apply (lines_lexed (depth tab 1) (stext tab 1) (stoks tab 1)).
    match goal with K : forallb spelled_stmt l = true |- _ => rewrite forallb_forall in K; rename K into Hl end. rewrite Forall_forall in *.
    intros s Hs. split; [now apply hd_hdl, stmt_headed, Hl|now apply stmt_lexed, Hl]. }
  split.
  - unfold block_text. rewrite nl_join by (destruct l; [discriminate|congruence]). exact L.
  - replace (map (fun s => cat [margin tab 1; stext tab 1 s; newline]) l) with (map (fun s => String.append (String.append (spaces (depth tab 1)) (stext tab 1 s)) newline) l)
      by (apply map_ext; intros s; unfold cat; cbn [fold_right]; rewrite append_nil_s, append_assoc; reflexivity).
    rewrite nl_each. rewrite <- (app_nil_r (flat_map _ l)). eapply (lxs_cat eol eol); [exact L|exact newline_end|left; unfold newline; hdd].
Qed.

Lemma as_lexed : forall a s ts, o_all ident a = true -> lxs delim 0 s ts 0 ->
  lxs eol 0 (String.append s (otext a (fun a => String.append " as " a))) (ts ++ astoks a) 0.
Proof.
  intros [a|] s ts H L; cbn [otext astoks otoks o_all] in *.
  - eapply lxs_word; [exact L| |hdd]. tk1. eapply lxs_lit; [lit|]. now apply eol_lxs, ident_delim.
  - rewrite append_nil_s, app_nil_r. now apply eol_lxs.
Qed.

Lemma wrap_lexed : forall b w s ts d, ident w = true -> (forall d, lxs delim d s ts d) ->
  lxs delim d (if b : bool then cat [w; "("; s; ")"] else s) (wraptoks b w ts) d.
Proof.
  intros [] w s ts d W L; [|apply L]. unfold cat, wraptoks. cbn [fold_right].
  tk1. eapply lxs_tight; [now apply ident_lexed| |hdd]. tk1. eapply lxs_lit; [lit|].
  eapply (lxs_word (S d) _ _ (S d)); [apply L|apply any_lxs; lit|hdd].
Qed.

Lemma decs_lexed : forall tab decs T tk, forallb spelled decs = true -> headed hdl T -> lxs eol 0 T tk 0 ->
  headed hdl (String.append (cat (map (fun d => cat ["@"; vtext tab 0 d; newline]) decs)) T) /\
  lxs eol 0 (String.append (cat (map (fun d => cat ["@"; vtext tab 0 d; newline]) decs)) T)
            (flat_map (fun d => TSym "@" :: vtoks d ++ [TLine 0]) decs ++ tk) 0.
Proof.
  intros tab decs T tk Sp Hd L. induction decs as [|e decs IH]; [split; assumption|]. cbn in Sp. andb.
  destruct (IH ltac:(assumption)) as (I1 & I2). cbn [map]. change (cat (?x :: ?y)) with (String.append x (cat y)). rewrite append_assoc.
  set (X := String.append (cat (map _ decs)) T) in *. unfold cat. cbn [fold_right]. rewrite !append_assoc. cbn [String.append].
  split; [hdd|]. cbn [flat_map]. cbn [app]. rewrite <- !app_assoc. tk1.
  change (String "@" ?x) with (String.append "@" x). eapply lxs_lit; [lit|]. cbn [app].
  eapply lxs_cat; [now apply exp_delim|exact (line_lexed 0 X _ I1 I2)|left; unfold newline; hdd].
Qed.

Lemma cat4 : forall a b c d, cat [a; b; c; d] = String.append a (String.append b (String.append c d)).
Proof. intros. unfold cat. cbn [fold_right]. now rewrite append_nil_s. Qed.
Lemma cat5 : forall a b c d e, cat [a; b; c; d; e] = String.append a (String.append b (String.append c (String.append d e))).
Proof. intros. unfold cat. cbn [fold_right]. now rewrite append_nil_s. Qed.
Lemma cat6 : forall a b c d e f, cat [a; b; c; d; e; f] = String.append a (String.append b (String.append c (String.append d (String.append e f)))).
Proof. intros. unfold cat. cbn [fold_right]. now rewrite append_nil_s. Qed.

Lemma def_lexed : forall tab d, spelled_def d = true -> headed hdl (dtext tab d) /\ lxs eol 0 (dtext tab d) (dtoks tab d) 0.
Proof.
  intros tab d H. destruct d; cbn [spelled_def] in H; andb; cbn [dtext dtoks].
  - assert (K : headed hdl (String.append (head_text tab 0 f args ret) (String.append newline (block_text tab 1 body))) /\
                lxs eol 0 (String.append (head_text tab 0 f args ret) (String.append newline (block_text tab 1 body)))
                  (headtoks f args ret ++ flat_map (fun s => TLine (depth tab 1) :: stoks tab 1 s) body) 0).
    { split; [apply headed_app, hd_hdl, head_headed|]. eapply lxs_lit; [now apply head_lexed|now apply block_lexed]. }
    rewrite cat4. now apply decs_lexed.
  - rewrite cat4. split; [now apply headed_app, hd_hdl, exp_headed|].
    eapply lxs_word; [now apply exp_delim| |hdd]. tk1. eapply lxs_lit; [lit|].
    assert (W : lxs delim 0 ((fun (b : bool) w t => if b then cat [w; "("; t; ")"] else t) public "public"
              ((fun (b : bool) w t => if b then cat [w; "("; t; ")"] else t) constant "constant"
              ((fun (b : bool) w t => if b then cat [w; "("; t; ")"] else t) immutable "immutable" (type_text tab 0 ty))))
              (wraptoks public "public" (wraptoks constant "constant" (wraptoks immutable "immutable" (type_toks ty)))) 0).
    { cbv beta. apply wrap_lexed; [reflexivity|]. intros d1. apply wrap_lexed; [reflexivity|]. intros d2. apply wrap_lexed; [reflexivity|].
      intros d3. now apply type_lexed. }
    cbv beta in W. destruct e as [e|]; cbn [otext otoks o_all] in *.
    + eapply lxs_word; [exact W| |hdd]. tk1. eapply lxs_lit; [lit|]. now apply eol_lxs, exp_delim.
    + rewrite append_nil_s, app_nil_r. apply eol_lxs. exact W.
  - match goal with Q : (kw =?s "struct") = true |- _ => apply String.eqb_eq in Q; subst kw end.
    rewrite cat6. split; [hdd|].
    change (lxs eol 0 (String.append "struct " (String.append f (String.append ":" (String.append newline (cat (map (fun s => cat [margin tab 1; stext tab 1 s; newline]) body))))))
      (TWord "struct" :: TWord f :: TSym ":" :: flat_map (fun s => TLine (depth tab 1) :: stoks tab 1 s) body) 0).
    tk1. eapply lxs_lit; [lit|]. tk1. eapply lxs_word; [now apply ident_delim| |hdd]. tk1. eapply lxs_lit; [lit|]. now apply block_lexed.
  - rewrite cat5. split; [hdd|]. tk1. eapply lxs_lit; [lit|].
    tk1. eapply lxs_word; [now apply ident_delim| |hdd]. tk1. eapply lxs_lit; [lit|].
    set (t := fun g => cat [head_text tab 1 (vg_name g) (vg_args g) (vg_ret g); " "; vtext tab 1 (vg_body g)]).
    replace (map _ sigs) with (map (fun g => String.append (String.append (spaces (depth tab 1)) (t g)) newline) sigs)
      by (apply map_ext; intros g; unfold t, cat; cbn [fold_right]; rewrite !append_nil_s, !append_assoc; reflexivity).
    rewrite nl_each. rewrite <- (app_nil_r (flat_map _ sigs)). eapply (lxs_cat eol eol); [|exact newline_end|left; unfold newline; hdd].
    apply (lines_lexed (depth tab 1) t (fun g => headtoks (vg_name g) (vg_args g) (vg_ret g) ++ vtoks (vg_body g))).
    match goal with K : forallb _ sigs = true |- _ => rewrite forallb_forall in K; rename K into Hl end. apply Forall_forall.
    intros g Hg. specialize (Hl g Hg). cbv beta in Hl. andb. unfold t, cat. cbn [fold_right]. split; [apply headed_app, hd_hdl, head_headed|].
    eapply lxs_lit; [now apply head_lexed|]. rewrite append_nil_s. change (vtoks (vg_body g)) with ([] ++ vtoks (vg_body g)).
    eapply lxs_lit; [lit|]. now apply eol_lxs, exp_delim.
  - rewrite cat6.
    match goal with Q : smem kw _ = true |- _ => apply smem_true_In in Q; cbn in Q; rename Q into Hk end.
    destruct Hk as [<-|[<-|[]]]; (split; [hdd|]).
    + change (lxs eol 0 (String.append "event " (String.append f (String.append ":" (String.append newline (block_text tab 1 body)))))
        (TWord "event" :: TWord f :: TSym ":" :: flat_map (fun s => TLine (depth tab 1) :: stoks tab 1 s) body) 0).
      tk1. eapply lxs_lit; [lit|]. tk1. eapply lxs_word; [now apply ident_delim| |hdd]. tk1. eapply lxs_lit; [lit|]. now apply block_lexed.
    + change (lxs eol 0 (String.append "enum " (String.append f (String.append ":" (String.append newline (block_text tab 1 body)))))
        (TWord "enum" :: TWord f :: TSym ":" :: flat_map (fun s => TLine (depth tab 1) :: stoks tab 1 s) body) 0).
      tk1. eapply lxs_lit; [lit|]. tk1. eapply lxs_word; [now apply ident_delim| |hdd]. tk1. eapply lxs_lit; [lit|]. now apply block_lexed.
  - unfold cat. cbn [fold_right]. rewrite append_nil_s. split; [hdd|]. tk1. eapply lxs_lit; [lit|]. apply as_lexed; [assumption|]. now apply mod_lexed.
  - unfold cat. cbn [fold_right]. rewrite append_nil_s. split; [hdd|]. tk1. eapply lxs_lit; [lit|].
    assert (M : lxs delim 0 match m with Some m => m | None => "." end match m with Some m => modtoks m | None => [TSym "."] end 0).
    { destruct m as [m|]; [now apply mod_lexed|]. apply any_lxs. lit. }
    eapply lxs_word; [exact M| |hdd]. tk1. eapply lxs_lit; [lit|]. change (TWord x :: astoks alias) with ([TWord x] ++ astoks alias).
    apply as_lexed; [assumption|]. now apply ident_delim.
Qed.

Lemma program_lexed : forall tab l, forallb spelled_def l = true ->
  lx 0 (String "010" (program_text tab l)) (flat_map (fun d => TLine 0 :: dtoks tab d) l) 0 "".
Proof.
  intros tab l H.
  assert (L : lxs eol 0 (String.append newline (program_text tab l)) (flat_map (fun d => TLine 0 :: dtoks tab d) l ++ []) 0).
  { unfold program_text. 
    replace (map (fun d => cat [dtext tab d; newline; newline]) l) with (map (fun d => String.append (String.append (spaces 0) (String.append (dtext tab d) newline)) newline) l)
      by (apply map_ext; intros d; unfold cat; cbn [fold_right spaces]; rewrite append_nil_s; cbn [String.append]; rewrite append_assoc; reflexivity).
    rewrite nl_each. eapply (lxs_cat eol eol); [|exact newline_end|left; unfold newline; hdd].
    apply (lines_lexed 0 (fun d => String.append (dtext tab d) newline) (dtoks tab)). rewrite forallb_forall in H. apply Forall_forall.
    intros d Hd. destruct (def_lexed tab d (H d Hd)) as (D1 & D2). split; [now apply headed_app|].
    rewrite <- (app_nil_r (dtoks tab d)). eapply (lxs_cat eol eol); [exact D2|exact newline_end|left; unfold newline; hdd]. }
  rewrite app_nil_r in L. specialize (L "" eq_refl). rewrite append_nil_s in L. exact L.
Qed.

(** ** Reading *)

Lemma type_ok : forall t, spelled_type t = true ->
  exists N, forall f, N <= f -> forall rest, stops 0 rest -> a_type f (type_toks t ++ rest) = Some (t, rest).
Proof.
  intros [e|l] H.
  - assert (Sp : spelled e = true) by (destruct e; first [exact H|discriminate]).
    destruct (expr_ok e Sp) as (N & K). exists N. intros f F rest St. unfold a_type. cbn [type_toks]. rewrite K by assumption.
    destruct e; first [reflexivity|discriminate].
  - cbn in H. andb. assert (Ne : forall e, l <> [e]) by (intros e ->; discriminate).
    assert (G : goodt (vtoks (VTuple l)) 12 (VTuple l)).
    { apply prim_good; [rewrite tuple_toks by exact Ne; left; cbn; tauto|]. apply tuple_good; [exact Ne|now apply all_spelled|].
      apply all_good; [|assumption]. apply Forall_forall. intros e _. apply exp_sound. }
    destruct G as (N & K). exists N. intros f F rest St. unfold a_type. cbn [type_toks]. rewrite <- tuple_toks by exact Ne.
    rewrite K; [reflexivity|exact F|lia|exact St].
Qed.

Lemma type_open : forall t, spelled_type t = true -> opening 0 (type_toks t).
Proof.
  intros [e|l] H; [|left; cbn; tauto]. apply exp_open0. destruct e; first [exact H|discriminate].
Qed.

Lemma wrapped_ok : forall {A} (b : bool) w (p : parser A) toks a,
  (forall rest, stops 0 rest -> p (toks ++ rest) = Some (a, rest)) -> (forall rest, word w (toks ++ rest) = None) ->
  forall rest, stops 0 rest -> wrapped w p (wraptoks b w toks ++ rest) = Some ((b, a), rest).
Proof.
  intros A b w p toks a H W rest St. unfold wrapped, wraptoks. destruct b.
  - cbn [app word]. rewrite String.eqb_refl. cbn [sym]. cbn [String.eqb Ascii.eqb Bool.eqb]. rewrite <- app_assoc.
    rewrite H by exact Logic.I. reflexivity.
  - now rewrite W, H.
Qed.

Lemma arg_ok : forall a, spelled_arg a = true ->
  exists N, forall f, N <= f -> forall rest, between_ok ")" rest -> argument f (argtoks a ++ rest) = Some (a, rest).
Proof.
  intros [x ty d] H. unfold spelled_arg in H. cbn [va_name va_type va_default] in H. andb.
  destruct (o_expr ty ltac:(assumption)) as (N & K). destruct (o_expr d ltac:(assumption)) as (M & L).
  exists (N + M). intros f F rest B. unfold argument, argtoks. cbn [va_name va_type va_default app]. rewrite <- app_assoc.
  assert (St : stops 0 rest) by (destruct B as (r & [-> | ->]); exact Logic.I).
  rewrite (optional_ok ":" (expr f 0) ty vtoks).
  - rewrite (optional_ok "=" (expr f 0) d vtoks); [reflexivity| |destruct B as (r & [-> | ->]); reflexivity].
    intros e E. apply L; [lia|exact E|exact St].
  - intros e E. apply K; [lia|exact E|]. destruct d; [exact Logic.I|exact St].
  - destruct d; [reflexivity|]. destruct B as (r & [-> | ->]); reflexivity.
Qed.

Lemma args_ok : forall l, forallb spelled_arg l = true ->
  exists N, forall a, In a l -> forall f, N <= f -> forall rest, between_ok ")" rest -> argument f (argtoks a ++ rest) = Some (a, rest).
Proof.
  induction l as [|a l IH]; intros H; [exists 0; intros a []|]. cbn in H. andb. destruct (IH ltac:(assumption)) as (N & K).
  destruct (arg_ok a ltac:(assumption)) as (M & L). exists (N + M). intros x [<-|Hx] f F; [apply L; lia|apply K; [exact Hx|lia]].
Qed.

Lemma header_ok : forall g args ret, spelled_head g args ret = true ->
  exists N, forall f, N <= f -> forall rest, header f (headtoks g args ret ++ rest) = Some ((g, args, ret), rest).
Proof.
  intros g args ret H. unfold spelled_head in H. andb. destruct (args_ok args ltac:(assumption)) as (N & K).
  assert (T : exists M, forall f, M <= f -> forall t rest, ret = Some t -> stops 0 rest -> a_type f (type_toks t ++ rest) = Some (t, rest)).
  { destruct ret as [t|]; [|exists 0; discriminate]. destruct (type_ok t ltac:(assumption)) as (M & L). exists M.
    intros f F t2 rest [= <-] St. now apply L. }
  destruct T as (M & L). exists (N + M + S (List.length args)). intros f F rest. unfold header, headtoks. cbn [app word].
  cbn [String.eqb Ascii.eqb Bool.eqb]. cbn [sym]. cbn [String.eqb Ascii.eqb Bool.eqb]. rewrite <- app_assoc. cbn [app]. rewrite <- app_assoc.
  rewrite (items_ok (argument f) ")" argtoks args); [|discriminate|reflexivity| |lia].
  - rewrite (optional_ok "->" (a_type f) ret type_toks); [reflexivity| |reflexivity].
    intros t E. apply L; [lia|exact E|exact Logic.I].
  - intros a r Ha B. apply K; [exact Ha|lia|exact B].
Qed.

Lemma decorators_any : forall decs, forallb spelled decs = true -> exists N, forall f, N <= f -> forall rest, sym "@" rest = None ->
  decorators f (flat_map (fun d => TSym "@" :: vtoks d ++ [TLine 0]) decs ++ rest) = Some (decs, rest).
Proof.
  induction decs as [|e decs IH]; intros H.
  - exists 1. intros [|f] F rest W; [lia|]. cbn [flat_map app decorators]. now rewrite W.
  - cbn in H. andb. destruct (IH ltac:(assumption)) as (N & K). destruct (expr_ok e ltac:(assumption)) as (M & L).
    exists (S (N + M)). intros [|f] F rest W; [lia|]. cbn [flat_map app decorators sym]. cbn [String.eqb Ascii.eqb Bool.eqb].
    rewrite <- !app_assoc. rewrite L; [|lia|exact Logic.I]. cbn [app]. rewrite K by (assumption || lia). reflexivity.
Qed.

Lemma dotted_ok : forall m rest, pieces m <> [] -> sym "." rest = None ->
  forall f, List.length (pieces m) < f -> dotted f (modtoks m ++ rest) = Some (m, rest).
Proof.
  intros m rest _ W f F. rewrite <- (proj1 (pieces_ok m)) at 2. unfold modtoks. pose proof (proj2 (pieces_ok m)) as Ne.
  revert f F Ne. induction (pieces m) as [|a l IH]; intros f F Ne; [congruence|]. destruct f as [|f]; [cbn in F; lia|]. destruct l as [|b l].
  - cbn [map tjoin app dotted sjoin]. now rewrite W.
  - cbn [map]. change (tjoin [TSym "."] ([TWord a] :: [TWord b] :: ?q)) with ([TWord a] ++ [TSym "."] ++ tjoin [TSym "."] ([TWord b] :: q)).
    cbn [app dotted sym]. cbn [String.eqb Ascii.eqb Bool.eqb]. change ([TWord b] :: map (fun x => [TWord x]) l) with (map (fun x => [TWord x]) (b :: l)).
    rewrite IH; [|cbn in *; lia|discriminate]. rewrite join_cons. unfold cat. cbn [fold_right]. now rewrite append_nil_s.
Qed.

Lemma renamed_ok : forall a rest, word "as" rest = None -> renamed (astoks a ++ rest) = Some (a, rest).
Proof. intros [a|] rest W; unfold renamed; cbn; [reflexivity|]. now rewrite W. Qed.

Lemma after_word : forall k rest w, after k rest -> word w rest = None.
Proof. intros k [|[] r] w H; cbn in *; first [contradiction|reflexivity]. Qed.

Lemma after_before : forall tab rest, (0 < tab)%N -> after 0 rest -> before (depth tab 1) rest.
Proof. intros tab [|[] r] T H; cbn in *; try contradiction; auto. pose proof (depth_lt tab 0 T) as D. cbn in D. unfold depth in *. lia. Qed.

Lemma sblock_ok : forall tab l, (0 < tab)%N -> spelled_block l = true ->
  exists N, forall f, N <= f -> forall rest, after 0 rest ->
  block f 0 (stmt f) (flat_map (fun s => TLine (depth tab 1) :: stoks tab 1 s) l ++ rest) = Some (l, rest).
Proof.
  intros tab l T H. unfold spelled_block in H. andb.
  assert (Sb : forall s, In s l -> spelled_stmt s = true) by now apply forallb_forall.
  destruct (common_stmt tab 1 l) as (N & K). { apply Forall_forall. intros s Hs. apply stmt_sound; auto. }
  exists (N + S (List.length l)). intros f F rest A. apply (block_ok (stmt f) (stoks tab 1) 0 (depth tab 1)).
  - destruct l; [discriminate|congruence].
  - exact (depth_lt tab 0 T).
  - intros s r Hs Ar. apply K; [exact Hs|lia|exact Ar].
  - intros s r Hs. now apply stmt_else, Sb.
  - now apply after_before.
  - lia.
Qed.

Definition sigtoks (g : vsig) : list tok := headtoks (vg_name g) (vg_args g) (vg_ret g) ++ vtoks (vg_body g).

Lemma sigs_ok : forall l, forallb (fun g => spelled_head (vg_name g) (vg_args g) (vg_ret g) && spelled (vg_body g)) l = true ->
  exists N, forall g, In g l -> forall f, N <= f -> forall rest, stops 0 rest -> signature f (sigtoks g ++ rest) = Some (g, rest).
Proof.
  induction l as [|[g args ret e] l IH]; intros H; [exists 0; intros g []|]. cbn in H. andb. destruct (IH ltac:(assumption)) as (N & K).
  destruct (header_ok g args ret ltac:(assumption)) as (M & L). destruct (expr_ok e ltac:(assumption)) as (O & P).
  exists (N + M + O). intros x [<-|Hx] f F rest St; [|apply K; [exact Hx|lia|exact St]].
  unfold signature, sigtoks. cbn [vg_name vg_args vg_ret vg_body]. rewrite <- app_assoc, L by lia. rewrite P; [reflexivity|lia|exact St].
Qed.

Lemma def_else : forall tab d r, spelled_def d = true -> word "else" (dtoks tab d ++ r) = None.
Proof.
  intros tab d r H. destruct d; cbn [spelled_def] in H; andb; cbn [dtoks]; try reflexivity.
  - destruct decorators; reflexivity.
  - rewrite <- app_assoc. apply open_word with 0; [now apply opening_app, exp_open0|kw|discriminate].
  - seqb. reflexivity.
  - match goal with Q : smem kw _ = true |- _ => apply smem_true_In in Q; cbn in Q; destruct Q as [<-|[<-|[]]]; reflexivity end.
Qed.

Lemma def_var : forall l ts f, opening l ts -> def f ts = variable f ts.
Proof.
  intros l [|[] ts] f H; try reflexivity; unfold def.
  - cbn in H. assert (F : smem s keywords = false \/ s = "not") by tauto. cbn [smem]. rewrite !(free_word s _ F) by kw. reflexivity.
  - now rewrite (open_not_sym l "@" (TSym s :: ts) H eq_refl).
Qed.

Lemma def_sound : forall tab d, (0 < tab)%N -> spelled_def d = true ->
  exists N, forall f, N <= f -> forall rest, after 0 rest -> def f (dtoks tab d ++ rest) = Some (d, rest).
Proof.
  intros tab d T H. destruct d; cbn [spelled_def] in H; andb; cbn [dtoks].
  - destruct (decorators_any _ H) as (N & K). destruct (header_ok f args ret ltac:(assumption)) as (M & L).
    destruct (sblock_ok tab body T ltac:(assumption)) as (O & P). exists (N + M + O). intros g F rest A.
    assert (E : function g ((flat_map (fun d => TSym "@" :: vtoks d ++ [TLine 0]) decorators ++
      headtoks f args ret ++ flat_map (fun s => TLine (depth tab 1) :: stoks tab 1 s) body) ++ rest) = Some (VdFun decorators f args ret body, rest)).
    { unfold function. rewrite <- !app_assoc, K; [|lia|reflexivity]. rewrite L by lia. rewrite P; [reflexivity|lia|exact A]. }
    destruct decorators; exact E.
  - destruct (proj1 (exp_sound x ltac:(assumption))) as (N & K).
    assert (Lv : plevel x = 12) by (apply level_binding; now apply Nat.leb_le). rewrite Lv in K.
    destruct (type_ok ty ltac:(assumption)) as (M & L). destruct (o_expr e ltac:(assumption)) as (O & P).
    exists (N + M + O). intros g F rest A. destruct (after_end _ _ A) as (A1 & A2 & A3).
    rewrite <- app_assoc. rewrite (def_var 0) by now apply opening_app, exp_open0. unfold variable.
    rewrite K; [|lia|lia|exact Logic.I]. cbn [app sym]. cbn [String.eqb Ascii.eqb Bool.eqb]. rewrite <- app_assoc.
    assert (Op : forall w r, In w keywords -> w <> "not" -> word w (type_toks ty ++ r) = None).
    { intros w r Hw Nw. apply open_word with 0; [now apply opening_app, type_open|exact Hw|exact Nw]. }
    rewrite (wrapped_ok public "public" _ _ (constant, (immutable, ty))).
    + rewrite (optional_ok "=" (expr g 0) e vtoks); [reflexivity| |apply A3]. intros b E. apply P; [lia|exact E|exact A2].
    + intros r Sr. apply wrapped_ok; [|destruct immutable; [reflexivity|intros; apply Op; kw]|exact Sr]. 
      intros r1 Sr1. apply wrapped_ok; [|intros; apply Op; kw|exact Sr1]. intros r2 Sr2. apply L; [lia|exact Sr2].
    + intros r. destruct constant; [reflexivity|]. destruct immutable; [reflexivity|]. apply Op; kw.
    + destruct e; [exact Logic.I|exact A2].
  - seqb. destruct (sblock_ok tab body T ltac:(assumption)) as (O & P). exists O. intros g F rest A.
    unfold def. cbn [app String.eqb Ascii.eqb Bool.eqb]. unfold named_block. cbn [sym]. cbn [String.eqb Ascii.eqb Bool.eqb].
    now rewrite P.
  - destruct (sigs_ok sigs ltac:(assumption)) as (N & K). exists (N + S (List.length sigs)). intros g F rest A.
    unfold def. cbn [app smem String.eqb Ascii.eqb Bool.eqb]. unfold named_block. cbn [sym]. cbn [String.eqb Ascii.eqb Bool.eqb].
    rewrite (block_ok (fun _ => signature g) sigtoks 0 (depth tab 1) sigs); [reflexivity| | | | | |lia].
    + destruct sigs; [discriminate|congruence].
    + exact (depth_lt tab 0 T).
    + intros x r Hx Ar. apply K; [exact Hx|lia|]. now apply (after_end (depth tab 1)).
    + reflexivity.
    + now apply after_before.
  - destruct (sblock_ok tab body T ltac:(assumption)) as (O & P). exists O. intros g F rest A.
    match goal with Q : smem kw _ = true |- _ => apply smem_true_In in Q; cbn in Q; destruct Q as [<-|[<-|[]]] end;
    unfold def; cbn [app smem String.eqb Ascii.eqb Bool.eqb]; unfold named_block; cbn [sym]; cbn [String.eqb Ascii.eqb Bool.eqb];
    now rewrite P.
  - exists (S (List.length (pieces m))). intros g F rest A. destruct (after_end _ _ A) as (A1 & A2 & A3).
    unfold def. cbn [app smem String.eqb Ascii.eqb Bool.eqb]. rewrite <- app_assoc.
    rewrite dotted_ok; [|now apply pieces_ok|destruct alias; [reflexivity|apply A3]|lia].
    rewrite renamed_ok; [reflexivity|]. now apply after_word with 0.
  - exists (match m with Some m => S (List.length (pieces m)) | None => 0 end). intros g F rest A.
    unfold def. cbn [app smem String.eqb Ascii.eqb Bool.eqb]. unfold import_from. rewrite <- app_assoc.
    assert (W : word "as" rest = None) by now apply after_word with 0. destruct m as [m|].
    + replace (sym "." (modtoks m ++ (TWord "import" :: TWord x :: astoks alias) ++ rest)) with (@None (list tok)).
      * rewrite dotted_ok; [|now apply pieces_ok|reflexivity|lia]. cbn [app word]. cbn [String.eqb Ascii.eqb Bool.eqb]. now rewrite renamed_ok.
      * unfold modtoks. pose proof (proj2 (pieces_ok m)) as Ne. destruct (pieces m) as [|a [|b l]]; [congruence| |]; reflexivity.
    + cbn [app sym]. cbn [String.eqb Ascii.eqb Bool.eqb]. cbn [word]. cbn [String.eqb Ascii.eqb Bool.eqb]. now rewrite renamed_ok.
Qed.

Lemma common_def : forall tab l, (0 < tab)%N -> forallb spelled_def l = true ->
  exists N, forall d, In d l -> forall f, N <= f -> forall rest, after 0 rest -> def f (dtoks tab d ++ rest) = Some (d, rest).
Proof.
  intros tab l T. induction l as [|d l IH]; intros H; [exists 0; intros d []|]. cbn in H. andb. destruct (IH ltac:(assumption)) as (N & K).
  destruct (def_sound tab d T ltac:(assumption)) as (M & L). exists (N + M). intros x [<-|Hx] f F; [apply L; lia|apply K; [exact Hx|lia]].
Qed.

Theorem program_reads : forall tab l, (0 < tab)%N -> forallb spelled_def l = true -> reads (program_text tab l) l.
Proof.
  intros tab l T H. destruct (lx_lex _ _ _ _ (program_lexed tab l H)) as (N & K). destruct (common_def tab l T H) as (M & L).
  exists (N + M + S (List.length l)). intros f F. unfold read_program. rewrite K by lia.
  rewrite <- (app_nil_r (flat_map _ l)), (more_ok (def f) (dtoks tab) 0 l []); [reflexivity| | |exact Logic.I|lia].
  - intros d r Hd A. apply L; [exact Hd|lia|exact A].
  - intros d r Hd. apply def_else. rewrite forallb_forall in H. now apply H.
Qed.
