(** The tokens of every Solidity expression and type are read as the expression or type. *)
From Coq Require Import String Ascii List NArith ZArith Bool Lia.
From Verif Require Import Base Json SpecLiteral SpecVyText SpecSolText SpecSolRead LitFacts PathFacts SolReadLex SolReadToks SolTextClaims SolReadParse.
From Verif Require SolText.
Import ListNotations.
Open Scope string_scope.
Open Scope list_scope.

Definition fine (e : sexp) : Prop := spelled e = true -> (is_type e = false -> sound e) /\ (is_type e = true -> tprim e).

Lemma fine_exp : forall e, fine e -> negb (is_type e) = true -> spelled e = true -> sound e.
Proof. intros e H T Sp. apply negb_true_iff in T. now apply H. Qed.
Lemma fine_good : forall e, fine e -> negb (is_type e) = true -> spelled e = true -> good e.
Proof. intros e H T Sp. now apply fine_exp. Qed.
Lemma fine_type : forall t, fine t -> is_type t = true -> spelled t = true -> tgood t.
Proof. intros t H T Sp. apply tprim_good. now apply H. Qed.

Ltac neg := repeat match goal with K : negb (is_type _) = true |- _ => apply negb_true_iff in K end.
Ltac lebs := repeat match goal with K : Nat.leb _ _ = true |- _ => apply leb in K end.

Ltac napp := repeat first [rewrite <- app_assoc|progress cbn [app]].

(** ** Types *)

Lemma name_tprim : forall x p, elementary x = true -> negb p || (x =?s "address") = true -> tprim (TName x p).
Proof.
  intros x p El P. exists 0, 0. intros f g rest _ _ Ne. exists (TName x p), rest. split; [|reflexivity]. cbn [xtoks app base].
  rewrite (elementary_no x "mapping" El eq_refl), (elementary_no x "function" El eq_refl), El. destruct p; cbn [ftoks app].
  - cbn in P. rewrite P. reflexivity.
  - rewrite word_app_none; [reflexivity|]. destruct rest as [|[]]; try exact Logic.I. apply Ne.
Qed.

Lemma user_tprim : forall x, path_name x = true -> tprim (TUser x).
Proof.
  intros x H. exists 0, 0. intros f g rest _ _ Ne. exists (TUser x), rest. split; [|reflexivity]. cbn [xtoks].
  assert (N : match rest with KSym s :: _ => s <> "." | _ => True end) by (destruct rest as [|[]]; try exact Logic.I; exact Ne).
  pose proof (path_ok x rest H N) as E. destruct (path_cons x H) as (p & l & _ & Hp & _ & T). rewrite T in *. cbn [app] in *. unfold base.
  rewrite (name_unequal p "mapping" Hp eq_refl), (name_unequal p "function" Hp eq_refl), (name_elementary p Hp). rewrite E. reflexivity.
Qed.

Lemma map_tprim : forall k kn v vn, tgood k -> tgood v -> blank_or name kn = true -> blank_or name vn = true -> tprim (TMap k kn v vn).
Proof.
  intros k kn v vn (N1 & H1) (N2 & H2) Hk Hv. exists (N1 + N2), 0. intros f g rest F G _. exists (TMap k kn v vn), rest. split; [|reflexivity].
  cbn [xtoks]. napp. unfold base. cbn [String.eqb Ascii.eqb Bool.eqb sym after]. rewrite H1; [|lia|lia|].
  - cbn [then_]. rewrite maybe_ident_ok; [|exact Hk|exact Logic.I]. cbn [sym after String.eqb Ascii.eqb Bool.eqb]. rewrite H2; [|lia|lia|].
    + cbn [then_]. rewrite maybe_ident_ok; [|exact Hv|exact Logic.I]. reflexivity.
    + apply tstops_wtoks; [|apply tstops_sym; discriminate]. intros E. apply tstops_name. destruct (blank_cases _ _ Hv) as [->|(_ & M)]; [congruence|exact M].
  - apply tstops_wtoks; [|apply tstops_sym; discriminate]. intros E. apply tstops_name. destruct (blank_cases _ _ Hk) as [->|(_ & M)]; [congruence|exact M].
Qed.

Lemma arr_tprim : forall t len, tprim t -> (forall e, len = Some e -> good e /\ is_type e = false /\ spelled e = true) -> tprim (TArr t len).
Proof.
  intros t len (N & M & H) L.
  assert (K : exists N2, forall f h rest, N2 <= f -> brackets (Datatypes.S h) (expr f 3) t (KSym "[" :: otoks xtoks len ++ KSym "]" :: rest) =
    brackets h (expr f 3) (TArr t len) rest).
  { destruct len as [e|].
    - destruct (L e eq_refl) as ((N2 & G) & T & Sp). exists N2. intros f h rest F. cbn [otoks].
      cbn [brackets sym String.eqb Ascii.eqb Bool.eqb]. rewrite open_not_sym with (l := tightness e); [|apply opening_app, exp_opening; assumption|reflexivity].
      rewrite G; [reflexivity|exact F|pose proof (tightness_max e Sp); lia|exact Logic.I].
    - exists 0. intros f h rest _. reflexivity. }
  destruct K as (N2 & K). exists (N + N2), (M + 1). intros f g rest F G _.
  destruct (H f g (KSym "[" :: otoks xtoks len ++ KSym "]" :: rest) ltac:(lia) ltac:(lia)) as (a & r & B & T); [discriminate|].
  exists a, r. split.
  - cbn [xtoks]. napp. exact B.
  - intros h Hh. replace (M + 1 + h) with (M + Datatypes.S h) by lia. rewrite T by lia. apply K. lia.
Qed.

Lemma params_good : forall ps, Forall (fun p => tgood (fst (fst p))) ps ->
  forallb (fun p : sexp * string * string => is_type (fst (fst p)) && spelled (fst (fst p)) && blank_or (fun l => smem l location_words) (snd (fst p)) && blank_or name (snd p)) ps = true ->
  exists N, forall f g, N <= f -> N <= g -> 
    (forall rest, items g (plain_param (typ g (expr f 3))) ")" (commas (map plain_toks ps) ++ KSym ")" :: rest) = Some (ps, rest)) /\
    (ps <> [] -> forall rest, items1 g (plain_param (typ g (expr f 3))) ")" (commas (map plain_toks ps) ++ KSym ")" :: rest) = Some (ps, rest)).
Proof.
  intros ps F B. destruct (tcommon (map (fun p => fst (fst p)) ps)) as (N & H).
  { rewrite Forall_map. exact F. }
  exists (N + List.length ps). intros f g Hf Hg.
  assert (E : forall a rest, In a ps -> between_ok ")" rest -> plain_param (typ g (expr f 3)) (plain_toks a ++ rest) = Some (a, rest)).
  { intros a rest I Bt. rewrite forallb_forall in B. specialize (B a I). andb. apply plain_param_ok with ")"; auto.
    intros r St. apply H; [apply (in_map (fun p => fst (fst p))), I|lia|lia|exact St]. }
  split; [intros rest; apply items_ok|intros Ne rest; apply items1_ok]; auto; try discriminate; try lia.
  intros a r I. rewrite forallb_forall in B. specialize (B a I). andb. unfold plain_toks. rewrite <- !app_assoc. now apply type_not_close.
Qed.

Lemma fun_tprim : forall ps e m rs, Forall (fun p => tgood (fst (fst p))) ps -> Forall (fun p => tgood (fst (fst p))) rs ->
  spelled (TFun ps e m rs) = true -> tprim (TFun ps e m rs).
Proof.
  intros ps e m rs Fp Fr Sp. cbn [spelled] in Sp. andb. destruct (params_good ps Fp) as (N1 & K1); [assumption|]. destruct (params_good rs Fr) as (N2 & K2); [assumption|].
  exists (N1 + N2), 0. intros f g rest F G Ne. exists (TFun ps e m rs), rest. split; [|reflexivity].
  cbn [xtoks]. fold plain_toks. napp. unfold base. cbn [String.eqb Ascii.eqb Bool.eqb sym after].
  rewrite (proj1 (K1 f g ltac:(lia) ltac:(lia))). cbn [then_].
  set (tl := match rs with [] => [] | _ => KWord "returns" :: KSym "(" :: commas (map plain_toks rs) ++ [KSym ")"] end).
  assert (Tl : forall l : list string, (forall x, In x l -> In x ["external"; "internal"; "pure"; "view"; "payable"]) -> match tl ++ rest with KWord x :: _ => smem x l = false | _ => True end).
  { intros l Hl. assert (K : forall x, In x ["external"; "internal"; "pure"; "view"; "payable"] -> smem x l = true -> False \/ True) by tauto. clear K.
    assert (Q : match tl ++ rest with KWord x :: _ => ~ In x ["external"; "internal"; "pure"; "view"; "payable"] | _ => True end).
    { subst tl. destruct rs as [|p rs]; cbn [app].
      - destruct rest as [|[] r]; try exact Logic.I. pose proof (tnear_words _ _ _ Ne eq_refl) as K. cbn in K |- *. tauto.
      - intros K. cbn in K. intuition discriminate. }
    destruct (tl ++ rest) as [|[] r]; try exact Logic.I. destruct (smem s l) eqn:E; [|reflexivity]. exfalso. apply Q. apply Hl. now apply smem_In in E. }
  assert (M : forall l : list string, (forall x, In x l -> In x ["external"; "internal"]) -> match wtoks m ++ tl ++ rest with KWord x :: _ => smem x l = false | _ => True end).
  { intros l Hl. unfold blank_or in *. unfold wtoks. destruct (m =?s "") eqn:E; cbn [app].
    - apply Tl. intros x Hx. apply Hl in Hx. cbn in Hx |- *. tauto.
    - destruct (smem m l) eqn:E2; [|reflexivity]. exfalso. apply smem_In in E2. apply Hl in E2.
      match goal with K : _ || _ = true |- _ => cbn [orb] in K; apply smem_In in K; cbn in K, E2; intuition congruence end. }
  assert (V : maybe_word ["external"; "internal"] (ftoks e "external" ++ wtoks m ++ tl ++ rest) = ((if e then "external" else ""), wtoks m ++ tl ++ rest)).
  { destruct e; [reflexivity|]. cbn [ftoks app]. apply maybe_word_none. apply M. auto. }
  rewrite V. rewrite maybe_word_ok; [|assumption|apply Tl; intros x Hx; cbn in Hx |- *; tauto].
  assert (Ee : ((if e then "external" else "") =?s "external") = e) by (destruct e; reflexivity). rewrite Ee. clear V Tl M.
  subst tl. destruct rs as [|p rs].
  - cbn [app]. rewrite word_app_none; [reflexivity|]. destruct rest as [|[] r]; try exact Logic.I.
    pose proof (tnear_words _ _ _ Ne eq_refl) as K. intros ->. apply K. cbn. tauto.
  - cbn [app word String.eqb Ascii.eqb Bool.eqb sym after]. napp.
    rewrite (proj2 (K2 f g ltac:(lia) ltac:(lia))) by discriminate. reflexivity.
Qed.

(** ** Expressions *)

Lemma prim_sound : forall e, is_type e = false -> spelled e = true -> tightness e = 16 -> prim e -> sound e.
Proof.
  intros e T Sp L P. assert (G : good e) by (unfold good; rewrite L; apply prim_good; [rewrite <- L; now apply exp_opening|exact P]).
  split; [exact G|]. split; [intros _; exact P|]. intros l M _. apply good_spine; [exact G|]. unfold middle in M. lia.
Qed.

Lemma near_sym : forall a s r, is_new a = false -> near a (KSym s :: r).
Proof. intros a s r H K. congruence. Qed.
Lemma near_open : forall a s r, s <> "." -> s <> "[" -> near a (KSym s :: r).
Proof. intros a s r H K _. now split. Qed.

(** Lists of expressions. *)
Lemma exps_good : forall l, Forall good l -> forallb (fun e => negb (is_type e) && spelled e) l = true ->
  exists N, forall f g close rest, N <= f -> N <= g -> smem close [")"; "]"; "}"] = true ->
    items g (expr f 3) close (commas (map xtoks l) ++ KSym close :: rest) = Some (l, rest) /\
    (l <> [] -> items1 g (expr f 3) close (commas (map xtoks l) ++ KSym close :: rest) = Some (l, rest)).
Proof.
  intros l F B. destruct (common l F) as (N & H). exists (N + List.length l). intros f g close rest Hf Hg C.
  assert (Cc : close <> ",") by (intros ->; discriminate C).
  assert (Cs : forall k r, stops k (KSym close :: r)).
  { intros k r. apply smem_In in C. destruct C as [<-|[<-|[<-|[]]]]; exact Logic.I. }
  assert (Cp : smem close ("(" :: "[" :: prefixes) = false) by (apply smem_In in C; destruct C as [<-|[<-|[<-|[]]]]; reflexivity).
  assert (E : forall a rest, In a l -> between_ok close rest -> expr f 3 (xtoks a ++ rest) = Some (a, rest)).
  { intros a r I (r2 & Bt). rewrite forallb_forall in B. specialize (B a I). andb. apply H; [exact I|lia| |].
    - pose proof (tightness_max a). intuition lia.
    - destruct Bt as [-> | ->]; [exact Logic.I|apply Cs]. }
  split; [apply items_ok|intros Ne; apply items1_ok]; auto; try lia.
  intros a r I. rewrite forallb_forall in B. specialize (B a I). andb. neg. apply open_not_sym with (tightness a); [|exact Cp]. now apply opening_app, exp_opening.
Qed.

Definition named_toks (kv : string * sexp) : list token := KWord (fst kv) :: KSym ":" :: xtoks (snd kv).

Lemma named_good : forall l, Forall (fun kv => good (snd kv)) l -> forallb (fun kv => name (fst kv) && (negb (is_type (snd kv)) && spelled (snd kv))) l = true ->
  exists N, forall f g rest, N <= f -> N <= g ->
    items g (named_item (expr f 3)) "}" (commas (map named_toks l) ++ KSym "}" :: rest) = Some (l, rest) /\
    (l <> [] -> items1 g (named_item (expr f 3)) "}" (commas (map named_toks l) ++ KSym "}" :: rest) = Some (l, rest)).
Proof.
  intros l F B. destruct (common (map snd l)) as (N & H); [rewrite Forall_map; exact F|]. exists (N + List.length l). intros f g rest Hf Hg.
  assert (E : forall a rest, In a l -> between_ok "}" rest -> named_item (expr f 3) (named_toks a ++ rest) = Some (a, rest)).
  { intros (k, v) r I (r2 & Bt). rewrite forallb_forall in B. specialize (B (k, v) I). cbn [fst snd] in B. andb. unfold named_item, named_toks. cbn [fst snd app].
    rewrite ident_name by assumption. cbn [then_ sym String.eqb Ascii.eqb Bool.eqb after]. rewrite H; [reflexivity|apply (in_map snd _ _ I)|lia| |].
    - pose proof (tightness_max v). intuition lia.
    - destruct Bt as [-> | ->]; exact Logic.I. }
  split; [apply items_ok|intros Ne; apply items1_ok]; auto; try lia; discriminate.
Qed.

Lemma forall_fine : forall l, Forall fine l -> forallb (fun e => negb (is_type e) && spelled e) l = true -> Forall good l.
Proof. intros l F B. rewrite Forall_forall in *. rewrite forallb_forall in B. intros x I. specialize (B x I). andb. apply fine_good; auto. Qed.
Lemma forall_named : forall l, Forall (fun kv => fine (snd kv)) l -> forallb (fun kv : string * sexp => name (fst kv) && (negb (is_type (snd kv)) && spelled (snd kv))) l = true ->
  Forall (fun kv => good (snd kv)) l.
Proof. intros l F B. rewrite Forall_forall in *. rewrite forallb_forall in B. intros x I. specialize (B x I). andb. apply fine_good; auto. Qed.
Lemma forall_params : forall l, Forall (fun p => fine (fst (fst p))) l ->
  forallb (fun p : sexp * string * string => is_type (fst (fst p)) && spelled (fst (fst p)) && blank_or (fun l => smem l location_words) (snd (fst p)) && blank_or name (snd p)) l = true ->
  Forall (fun p => tgood (fst (fst p))) l.
Proof. intros l F B. rewrite Forall_forall in *. rewrite forallb_forall in B. intros x I. specialize (B x I). andb. apply fine_type; auto. Qed.

Lemma call_prim : forall f args, prim f -> Forall good args -> forallb (fun e => negb (is_type e) && spelled e) args = true -> prim (XCall f args).
Proof.
  intros a args P F B. destruct (exps_good args F B) as (N & H). eapply prim_trail; [cbn [xtoks]; reflexivity|exact P| |].
  - intros rest. apply near_open; discriminate.
  - exists N. intros f g rest Hf Hg. napp. cbn [trailers String.eqb Ascii.eqb Bool.eqb]. unfold call.
    destruct (H f g ")" rest Hf Hg eq_refl) as (H1 & _). rewrite H1.
    replace (sym "{" _) with (@None (list token)); [reflexivity|]. symmetry. destruct args as [|x args]; [reflexivity|].
    rewrite forallb_forall in B. specialize (B x (or_introl eq_refl)). andb. neg.
    assert (K : forall r, sym "{" (xtoks x ++ r) = None) by (intros r; apply open_not_sym with (tightness x); [now apply opening_app, exp_opening|reflexivity]).
    unfold commas. destruct args; cbn [map tjoin]; [|rewrite <- app_assoc]; apply K.
Qed.

Lemma named_prim : forall f args, prim f -> Forall (fun kv => good (snd kv)) args ->
  forallb (fun kv => name (fst kv) && (negb (is_type (snd kv)) && spelled (snd kv))) args = true -> prim (XNamed f args).
Proof.
  intros a args P F B. destruct (named_good args F B) as (N & H). eapply prim_trail; [cbn [xtoks]; reflexivity|exact P| |].
  - intros rest. apply near_open; discriminate.
  - exists N. intros f g rest Hf Hg. napp. fold named_toks. cbn [trailers String.eqb Ascii.eqb Bool.eqb]. unfold call. cbn [sym String.eqb Ascii.eqb Bool.eqb].
    destruct (H f g (KSym ")" :: rest) Hf Hg) as (H1 & _). rewrite H1. reflexivity.
Qed.

Lemma opts_prim : forall f args, prim f -> some args = true -> Forall (fun kv => good (snd kv)) args ->
  forallb (fun kv => name (fst kv) && (negb (is_type (snd kv)) && spelled (snd kv))) args = true -> prim (XOpts f args).
Proof.
  intros a args P So F B. destruct (named_good args F B) as (N & H). eapply prim_trail; [cbn [xtoks]; reflexivity|exact P| |].
  - intros rest. apply near_open; discriminate.
  - exists N. intros f g rest Hf Hg. napp. fold named_toks. cbn [trailers String.eqb Ascii.eqb Bool.eqb].
    destruct (H f g rest Hf Hg) as (_ & H1). rewrite H1 by (intros ->; discriminate So).
    destruct args as [|x args]; [discriminate So|]. unfold commas. destruct args; reflexivity.
Qed.

Lemma member_prim : forall a x, prim a -> is_new a = false -> name x || (x =?s "address") = true -> prim (XMember a x).
Proof.
  intros a x P Nw Hx. eapply prim_trail; [cbn [xtoks]; reflexivity|exact P|intros rest; now apply near_sym|]. exists 0. intros f g rest _ _. napp.
  cbn [trailers String.eqb Ascii.eqb Bool.eqb]. apply orb_true_iff in Hx. destruct Hx as [Hx|Hx].
  - rewrite (name_free x Hx). reflexivity.
  - rewrite Hx. now rewrite andb_false_r.
Qed.

Definition part (i : option sexp) : Prop := forall e, i = Some e -> good e /\ is_type e = false /\ spelled e = true.

Lemma index_prim : forall a i, prim a -> is_new a = false -> part i -> prim (XIndex a i).
Proof.
  intros a i P Nw Pi. eapply prim_trail; [cbn [xtoks]; reflexivity|exact P|intros rest; now apply near_sym|]. destruct i as [e|].
  - destruct (Pi e eq_refl) as ((N & H) & T & Sp). exists N. intros f g rest Hf Hg. cbn [otoks]. napp. cbn [trailers String.eqb Ascii.eqb Bool.eqb]. unfold index.
    rewrite !open_not_sym with (l := tightness e); try reflexivity; try (now apply opening_app, exp_opening).
    rewrite H; [reflexivity|exact Hf|pose proof (tightness_max e Sp); lia|exact Logic.I].
  - exists 0. intros f g rest _ _. reflexivity.
Qed.

Lemma slice_end_ok : forall j, part j -> exists N, forall f a i rest, N <= f ->
  slice_end (expr f 3) a i (otoks xtoks j ++ KSym "]" :: rest) = Some (XSlice a i j, rest).
Proof.
  intros [e|] Pj.
  - destruct (Pj e eq_refl) as ((N & H) & T & Sp). exists N. intros f a i rest Hf. unfold slice_end. cbn [otoks].
    rewrite open_not_sym with (l := tightness e); [|now apply opening_app, exp_opening|reflexivity].
    rewrite H; [reflexivity|exact Hf|pose proof (tightness_max e Sp); lia|exact Logic.I].
  - exists 0. reflexivity.
Qed.

Lemma slice_prim : forall a i j, prim a -> is_new a = false -> part i -> part j -> prim (XSlice a i j).
Proof.
  intros a i j P Nw Pi Pj. destruct (slice_end_ok j Pj) as (Nj & Hj). eapply prim_trail; [cbn [xtoks]; reflexivity|exact P|intros rest; now apply near_sym|]. destruct i as [e|].
  - destruct (Pi e eq_refl) as ((N & H) & T & Sp). exists (N + Nj). intros f g rest Hf Hg. cbn [otoks]. napp. cbn [trailers String.eqb Ascii.eqb Bool.eqb]. unfold index.
    rewrite !open_not_sym with (l := tightness e); try reflexivity; try (now apply opening_app, exp_opening).
    rewrite H; [|lia|pose proof (tightness_max e Sp); lia|exact Logic.I]. cbn [then_ sym String.eqb Ascii.eqb Bool.eqb after]. rewrite Hj by lia. reflexivity.
  - exists Nj. intros f g rest Hf Hg. cbn [otoks]. napp. cbn [trailers String.eqb Ascii.eqb Bool.eqb]. unfold index. cbn [sym String.eqb Ascii.eqb Bool.eqb].
    rewrite Hj by lia. reflexivity.
Qed.

Lemma tuple_prim : forall l, match l with [None] => false | _ => true end = true ->
  Forall (fun o => match o with Some e => good e | None => True end) l ->
  forallb (fun o => match o with Some e => negb (is_type e) && spelled e | None => true end) l = true -> prim (XTuple l).
Proof.
  intros l N1 F B. apply prim_atom.
  assert (K : exists N, forall e, In (Some e) l -> forall f, N <= f -> forall k rest, 3 <= k <= tightness e -> stops k rest -> expr f k (xtoks e ++ rest) = Some (e, rest)).
  { clear N1 B. induction F as [|[e|] l H F (N2 & IH)]; [exists 0; intros e []| |].
    - destruct H as (N & H). exists (N + N2). intros x [E|Hx] f Hf; [injection E as <-; apply H; lia|apply IH; [exact Hx|lia]].
    - exists N2. intros x [E|Hx]; [discriminate E|now apply IH]. }
  destruct K as (N & H). exists (N + List.length l). intros f rest Hf _. cbn [xtoks app]. napp. unfold atom. cbn [String.eqb Ascii.eqb Bool.eqb].
  assert (O : forall e, In (Some e) l -> is_type e = false /\ spelled e = true).
  { intros e I. rewrite forallb_forall in B. specialize (B _ I). cbv beta iota in B. andb. neg. now split. }
  assert (C : forall e r s, In (Some e) l -> smem s [","; ")"] = true -> sym s (xtoks e ++ r) = None).
  { intros e r s I Hs. destruct (O e I). apply open_not_sym with (tightness e); [now apply opening_app, exp_opening|].
    apply smem_In in Hs. destruct Hs as [<-|[<-|[]]]; reflexivity. }
  destruct l as [|o l]; [reflexivity|].
  replace (sym ")" (commas (map (otoks xtoks) (o :: l)) ++ KSym ")" :: rest)) with (@None (list token)).
  2: { symmetry. unfold commas. destruct o as [e|], l as [|o2 l]; cbn [map tjoin otoks].
       - apply C; [now left|reflexivity].
       - rewrite <- app_assoc. apply C; [now left|reflexivity].
       - discriminate N1.
       - reflexivity. }
  rewrite items1_ok; [reflexivity|discriminate|discriminate| |lia].
  intros a r I (r2 & Bt). unfold hole. destruct a as [e|]; cbn [otoks].
  - rewrite !C by (auto; reflexivity). destruct (O e I) as (T & Sp). rewrite H; [reflexivity|exact I|lia|pose proof (tightness_max e Sp); lia|].
    destruct Bt as [-> | ->]; exact Logic.I.
  - destruct Bt as [-> | ->]; reflexivity.
Qed.

Lemma array_prim : forall l, some l = true -> Forall good l -> forallb (fun e => negb (is_type e) && spelled e) l = true -> prim (XArray l).
Proof.
  intros l So F B. apply prim_atom. destruct (exps_good l F B) as (N & H). exists N. intros f rest Hf _. cbn [xtoks]. napp. unfold atom. cbn [String.eqb Ascii.eqb Bool.eqb].
  destruct (H f f "]" rest Hf Hf eq_refl) as (_ & H1). rewrite H1 by (intros ->; discriminate So). reflexivity.
Qed.

Lemma new_prim : forall t, plain_type t = true -> tgood t -> prim (XNew t).
Proof.
  intros t Pl (N & H). apply prim_atom. exists N. intros f rest Hf Ne. cbn [xtoks app]. unfold atom. cbn [String.eqb Ascii.eqb Bool.eqb].
  rewrite H; [reflexivity|exact Hf|exact Hf|]. destruct rest as [|[] r]; try (split; [exact Logic.I|reflexivity]).
  - split; [|reflexivity]. cbn in Ne. apply orb_false_iff in Ne. split; [|intros K; congruence]. destruct Ne as (Ne & _). now apply String.eqb_neq.
  - destruct (Ne eq_refl). now apply tstops_sym.
Qed.

Lemma level_sound : forall e L N, tightness e = L -> L < 16 -> is_type e = false -> spelled e = true ->
  ~ middle L -> (forall f, N <= f -> forall rest, stops L rest -> expr f L (xtoks e ++ rest) = Some (e, rest)) -> sound e.
Proof.
  intros e L N E Lt T Sp Nm H. pose proof (tightness_max e Sp) as B.
  assert (G : good e). { unfold good. rewrite E. apply lift with N; [lia|rewrite <- E; now apply exp_opening|exact H]. }
  split; [exact G|]. split; [lia|]. intros l M Ll. unfold middle in *. apply good_spine; [exact G|]. lia.
Qed.

Lemma middle_sound : forall e L, tightness e = L -> middle L -> is_type e = false -> spelled e = true -> spine L e -> sound e.
Proof.
  intros e L E M T Sp H. assert (G : good e).
  { unfold good. rewrite E. apply spine_good; [exact M|rewrite <- E; now apply exp_opening|exact H]. }
  split; [exact G|]. unfold middle in M. split; [lia|]. intros l Ml Ll. destruct (Nat.eq_dec l L) as [->|]; [exact H|].
  apply good_spine; [exact G|]. unfold middle in Ml. lia.
Qed.

Theorem exp_fine : forall e, fine e.
Proof.
  intros e. induction e using sexp_ind2; intros Sp; pose proof Sp as Sp0; cbn [spelled] in Sp; andb; first [split; [|intros T; discriminate T]|split; [intros T; discriminate T|]]; intros T.
  - apply prim_sound; [reflexivity|exact Sp0|reflexivity|]. apply prim_atom. exists 0. intros f rest _ _. cbn [xtoks app]. apply orb_true_iff in Sp.
    destruct Sp as [Sp|Sp]; [now apply atom_name|]. seqb. reflexivity.
  - apply prim_sound; [reflexivity|exact Sp0|reflexivity|]. apply prim_atom. exists 0. intros f rest _ Ne. cbn [xtoks app].
    assert (Nb : smem s ["true"; "false"] = true -> numeral s = true -> False).
    { intros A B. apply smem_In in A. destruct A as [<-|[<-|[]]]; discriminate B. }
    destruct u as [u|]; cbn [otoks app].
    + andb. destruct (smem s ["true"; "false"]) eqn:E; [exfalso; auto|]. cbn [atom]. match goal with K : smem u units = true |- _ => rewrite K end. reflexivity.
    + destruct (smem s ["true"; "false"]) eqn:E.
      * apply smem_In in E. destruct E as [<-|[<-|[]]]; reflexivity.
      * apply atom_number. destruct rest as [|[] r]; try exact Logic.I. cbn in Ne. apply orb_false_iff in Ne. apply Ne.
  - apply prim_sound; [reflexivity|exact Sp0|reflexivity|]. apply prim_atom. exists 0. reflexivity.
  - apply prim_sound; [reflexivity|exact Sp0|reflexivity|]. apply prim_atom. exists 0. reflexivity.
  - apply prim_sound; [reflexivity|exact Sp0|reflexivity|]. apply prim_atom. exists 0. reflexivity.
  - lebs. assert (F1 : sound e1) by (apply fine_exp; assumption). assert (F2 : sound e2) by (apply fine_exp; assumption).
    destruct F1 as (G1 & _ & S1), F2 as (G2 & _ & _). destruct G2 as (N2 & P2).
    match goal with K : smem op binary_ops = true |- _ => destruct (binary_level op K) as [(-> & R & L)|(Nq & M & R & B)] end.
    + destruct G1 as (N1 & P1). change (left_needs "**") with 15 in *. change (right_needs "**") with 14 in *.
      apply (level_sound (XBin "**" e1 e2) 14 (Datatypes.S (N1 + N2))); [reflexivity|lia|reflexivity|exact Sp0|unfold middle; lia|]. intros [|f] F rest St; [lia|].
      cbn [xtoks expr]. napp. rewrite P1; [|lia|lia|cbn; lia]. cbn [then_ sym String.eqb Ascii.eqb Bool.eqb]. rewrite P2; [reflexivity|lia|lia|exact St].
    + assert (Ln : left_needs op = precedence op /\ right_needs op = Datatypes.S (precedence op)).
      { unfold left_needs, right_needs. rewrite (eqb_not op "**") by exact Nq. now split. }
      destruct Ln as (Ln & Rn). rewrite Ln, Rn in *. apply (middle_sound (XBin op e1 e2) (precedence op)); [reflexivity|exact M|reflexivity|exact Sp0|].
      destruct (S1 (precedence op) M ltac:(assumption)) as (N1 & M1 & P1). exists (N1 + N2), (M1 + 1). intros f rest F St. cbn [xtoks]. napp.
      destruct (P1 f (KSym op :: xtoks e2 ++ rest) ltac:(lia)) as (a & r & E & C); [unfold stops; rewrite R; lia|].
      exists a, r. split; [exact E|]. intros g G. replace (M1 + 1 + g) with (M1 + Datatypes.S g) by lia. rewrite C by lia. cbn [chain]. rewrite B.
      rewrite P2; [reflexivity|lia|unfold middle in M; lia|exact St].
  - lebs. assert (F1 : sound e) by (apply fine_exp; assumption). destruct F1 as ((N1 & P1) & _).
    apply (level_sound (XPre op e) 15 (Datatypes.S N1)); [reflexivity|lia|reflexivity|exact Sp0|unfold middle; lia|]. intros [|f] F rest St; [lia|].
    cbn [xtoks expr app]. destruct (op =?s "delete") eqn:E.
    + seqb. cbn [String.eqb Ascii.eqb Bool.eqb]. rewrite P1; [reflexivity|lia|lia|exact St].
    + assert (B : smem op prefixes = true).
      { match goal with K : smem op _ = true |- _ => apply smem_In in K; destruct K as [<-|K]; [discriminate E|now apply smem_In] end. }
      rewrite B. rewrite P1; [reflexivity|lia|lia|exact St].
  - lebs. assert (F1 : sound e) by (apply fine_exp; assumption). destruct F1 as ((N1 & P1) & _). pose proof (tightness_max e ltac:(assumption)).
    apply (level_sound (XPost op e) 15 (Datatypes.S N1)); [reflexivity|lia|reflexivity|exact Sp0|unfold middle; lia|]. intros [|f] F rest St; [lia|].
    cbn [xtoks expr]. napp. neg. pose proof (exp_opening e ltac:(assumption) ltac:(assumption)) as O.
    match goal with K : smem op _ = true |- _ => rename K into Ho end.
    assert (Q : then_ (expr f 16 (xtoks e ++ KSym op :: rest)) (fun a r => match r with KSym s :: r' => if smem s ["++"; "--"] then Some (XPost s a, r') else Some (a, r) | _ => Some (a, r) end) = Some (XPost op e, rest)).
    { rewrite P1; [cbn [then_]; rewrite Ho; reflexivity|lia|lia|]. apply smem_In in Ho. destruct Ho as [<-|[<-|[]]]; cbn; lia. }
    rewrite Q. replace (tightness e) with 16 in O by lia. destruct (xtoks e) as [|[] ts]; cbn in O; [destruct O|..]; cbn [app]; try reflexivity.
    + destruct (s =?s "delete") eqn:D; [|reflexivity]. seqb. specialize (O eq_refl). lia.
    + destruct (smem s prefixes) eqn:D; [|reflexivity]. destruct O as [[<-|[<-|[]]]|(_ & O)]; try discriminate D. lia.
  - lebs. assert (F1 : sound e1) by (apply fine_exp; assumption). destruct F1 as ((N1 & P1) & _).
    assert (F2 : sound e2) by (apply fine_exp; assumption). destruct F2 as ((N2 & P2) & _). pose proof (tightness_max e2 ltac:(assumption)).
    assert (F3 : sound e3) by (apply fine_exp; assumption). destruct F3 as ((N3 & P3) & _). pose proof (tightness_max e3 ltac:(assumption)).
    apply (level_sound (XCond e1 e2 e3) 3 (Datatypes.S (N1 + N2 + N3))); [reflexivity|lia|reflexivity|exact Sp0|unfold middle; lia|]. intros [|f] F rest St; [lia|].
    cbn [xtoks expr]. napp. rewrite P1; [|lia|lia|cbn; lia]. cbn [then_ String.eqb Ascii.eqb Bool.eqb]. rewrite P2; [|lia|lia|exact Logic.I].
    cbn [then_ sym after String.eqb Ascii.eqb Bool.eqb]. rewrite P3; [reflexivity|lia|lia|exact St].
  - lebs. assert (F1 : sound e1) by (apply fine_exp; assumption). destruct F1 as ((N1 & P1) & _).
    assert (F2 : sound e2) by (apply fine_exp; assumption). destruct F2 as ((N2 & P2) & _). pose proof (tightness_max e2 ltac:(assumption)).
    apply (level_sound (XAssign op e1 e2) 3 (Datatypes.S (N1 + N2))); [reflexivity|lia|reflexivity|exact Sp0|unfold middle; lia|]. intros [|f] F rest St; [lia|].
    match goal with K : smem op _ = true |- _ => rename K into Ho end.
    assert (A : (op =?s "?") = false /\ stops 4 (KSym op :: xtoks e2 ++ rest)).
    { apply smem_In in Ho. repeat (destruct Ho as [<-|Ho]; [split; [reflexivity|cbn; lia]|]). destruct Ho. }
    destruct A as (A1 & A2). cbn [xtoks expr]. napp. rewrite P1; [|lia|lia|exact A2]. cbn [then_]. rewrite A1, Ho. rewrite P2; [reflexivity|lia|lia|exact St].
  - lebs. apply prim_sound; [reflexivity|exact Sp0|reflexivity|]. apply call_prim; [|apply forall_fine; assumption|assumption].
    apply (fine_exp e); assumption.
  - lebs. apply prim_sound; [reflexivity|exact Sp0|reflexivity|]. apply named_prim; [|apply forall_named; assumption|assumption].
    apply (fine_exp e); assumption.
  - lebs. apply prim_sound; [reflexivity|exact Sp0|reflexivity|]. apply opts_prim; [|assumption|apply forall_named; assumption|assumption].
    apply (fine_exp e); assumption.
  - lebs. apply prim_sound; [reflexivity|exact Sp0|reflexivity|]. apply member_prim; [|apply negb_true_iff; assumption|assumption].
    apply (fine_exp e); assumption.
  - lebs. apply prim_sound; [reflexivity|exact Sp0|reflexivity|]. apply index_prim; [|apply negb_true_iff; assumption|].
    + apply (fine_exp e); assumption.
    + intros x ->. cbn in H. andb. neg. split; [apply fine_good; [assumption|now apply negb_true_iff|assumption]|now split].
  - lebs. apply prim_sound; [reflexivity|exact Sp0|reflexivity|]. apply slice_prim; [|apply negb_true_iff; assumption| |].
    + apply (fine_exp e); assumption.
    + intros x ->. cbn in H. andb. neg. split; [apply fine_good; [assumption|now apply negb_true_iff|assumption]|now split].
    + intros x ->. cbn in H0. andb. neg. split; [apply fine_good; [assumption|now apply negb_true_iff|assumption]|now split].
  - apply prim_sound; [reflexivity|exact Sp0|reflexivity|]. apply tuple_prim; [assumption| |assumption].
    rewrite Forall_forall in *. intros [x|] I; [|exact Logic.I]. specialize (H _ I). cbn in H.
    match goal with K : forallb _ l = true |- _ => rewrite forallb_forall in K; specialize (K _ I); cbv beta iota in K end. andb. apply fine_good; assumption.
  - apply prim_sound; [reflexivity|exact Sp0|reflexivity|]. apply array_prim; [assumption|apply forall_fine; assumption|assumption].
  - apply prim_sound; [reflexivity|exact Sp0|reflexivity|]. apply new_prim; [assumption|]. apply fine_type; assumption.
  - apply prim_sound; [reflexivity|exact Sp0|reflexivity|]. apply prim_atom. exists 0. intros f rest _ _. cbn [xtoks app]. apply orb_true_iff in Sp.
    destruct Sp as [Sp|Sp]; [now apply atom_elementary|]. seqb. reflexivity.
  - now apply name_tprim.
  - now apply user_tprim.
  - apply map_tprim; try assumption; apply fine_type; assumption.
  - apply arr_tprim; [match goal with K : fine e |- _ => apply K; assumption end|]. intros x ->. cbn in H. andb. neg.
    split; [apply fine_good; [assumption|now apply negb_true_iff|assumption]|now split].
  - apply fun_tprim; [apply forall_params; assumption|apply forall_params; assumption|exact Sp0].
Qed.
