(** Where the nodes of a Solidity program stand that comments are put next to. *)
From Coq Require Import String Ascii List NArith ZArith Bool Lia.
From Verif Require Import Base Json JsonFacts SolMutators SpecTree SpecMutation SpecPlain SpecAccept SpecOps SpecLiteral SpecVyText SpecSolText SpecSolRead SpecSolEdit SpecSolNote
  PlainFacts SolText SolTextStmt SolTextClaims SolPlace SolStrip SolEditFacts SolEditClaims SolHouse.
Import ListNotations.
Open Scope string_scope.
Open Scope list_scope.

(** ** Expressions and declarations *)

Lemma chain_low : forall t0 t0' t t', chain t0 t0' t t' -> (match t with TE _ | TV _ => True | _ => False end) -> match t0 with TE _ | TV _ => True | _ => False end.
Proof.
  intros t0 t0' t t' C. unfold chain in C. induction C as [u w [-> ->]|c c' t t' S C IH]; [auto|]. intros T. apply IH. destruct S; try exact (False_ind _ T); exact Logic.I.
Qed.
Lemma sort_refl : forall t, sort t t.
Proof. intros []; exact Logic.I. Qed.

Lemma houses_active : forall ty, In ty houses -> In ty active.
Proof. intros ty I. cbn in I |- *. intuition. Qed.

Lemma low_free : forall t v, match t with TE _ | TV _ => True | _ => False end -> any None t v -> lean v = true -> uncommented v -> free v.
Proof.
  intros t v T H L U p x S ty A [<-|I].
  - pose proof (U p x S) as C. rewrite (type_comment _ _ A) in C. discriminate C.
  - assert (Tx : exists ty, is_n x ty /\ In ty active) by (exists ty; split; [exact A|now apply houses_active]).
    pose proof (hit_at x x p v S) as Hi.
    assert (O : out None x x t (set_subtree p x v)).
    { destruct t as [e|d| | | |]; try exact (False_ind _ T); [exact (all_placed None x x Tx e v _ H L Hi)|exact (var_placed None x x Tx d v _ H L Hi)]. }
    destruct O as (t0 & H0 & O). destruct (O t0 (sort_refl t0) H0) as (t' & _ & _ & C). pose proof (chain_low _ _ _ _ C T) as T0.
    destruct (any_type None t0 x H0) as (ty' & A' & I'). rewrite (same_type _ _ _ A A') in I. clear - T0 I I'.
    destruct t0 as [[]|[]| | | |]; try exact (False_ind _ T0); cbn in I'; repeat (destruct I' as [<-|I']; [cbn in I; intuition discriminate|]); destruct I'.
Qed.
Lemma exp_free : forall e v, xnode e v -> lean v = true -> uncommented v -> free v.
Proof. intros e v. exact (low_free (TE e) v Logic.I). Qed.
Lemma var_free : forall d v, var_node d v -> lean v = true -> uncommented v -> free v.
Proof. intros d v. exact (low_free (TV d) v Logic.I). Qed.

(** ** Nodes *)

Lemma inert_free : forall v, inert v = true -> uncommented v -> free v.
Proof.
  intros v I U p x S ty A [<-|J].
  - pose proof (U p x S) as C. rewrite (type_comment _ _ A) in C. discriminate C.
  - assert (Tx : exists ty, is_n x ty /\ In ty active) by (exists ty; split; [exact A|now apply houses_active]).
    pose proof (hit_active x x Tx _ _ (hit_at x x p v S)). congruence.
Qed.

Definition full (i : N) (v : json) : Prop := everywhere (fun b => is_sol "Block" b -> sol_id b = Some i -> ~ has_field b "statements" (JArr [])) v.

Section Unit.
Variable i0 : N.
Definition kept0 := kept i0 nothing.
Definition housed0 := housed i0 nothing.

Definition rest_kept (ty : string) (v : json) : Prop :=
  forall k w, In k (part_keys ty) -> fld v k w -> lean w = true -> uncommented w -> full i0 w -> kept0 ty k w.

Lemma node_kept : forall ty o, is_n (JObj o) ty -> lean (JObj o) = true -> uncommented (JObj o) -> full i0 (JObj o) -> rest_kept ty (JObj o) ->
  forall k w, In (k, w) o -> kept0 ty k w.
Proof.
  intros ty o A L U Fu R k w I. pose proof (type_is o _ A) as T. apply lean_iff in L. destruct L as (O & L).
  assert (Uw : uncommented w).
  { apply (in_map snd) in I. cbn [snd] in I. apply In_nth_error in I. destruct I as (i & N). apply (uncommented_sub [i] (JObj o)); [exact U|]. cbn [subtree children]. now rewrite N. }
  assert (Fw : full i0 w) by (apply (ev_child _ (JObj o) w Fu); exact (in_map snd o (k, w) I)).
  destruct (L k w I) as [J|(J & Lw)]; [apply kp_free; now apply inert_free|]. rewrite T in J. apply R; try assumption. unfold fld, oget. now apply once_assoc.
Qed.

Lemma node_housed : forall ty v, is_n v ty -> lean v = true -> uncommented v -> full i0 v -> rest_kept ty v -> housed0 v.
Proof.
  intros ty v A L U Fu R. destruct v as [| | | | |o]; try discriminate A. apply hs_node; [exact (uncommented_root _ U)| |].
  { intros T I F. refine (ev_root _ _ Fu _ I F). unfold is_sol, has_field. unfold is_n, fld in A. rewrite A. f_equal. f_equal. rewrite <- T. symmetry. exact (type_is o _ A). }
 rewrite (type_is o _ A). apply kept_iff. now apply node_kept.
Qed.
Lemma node_free : forall ty v, is_n v ty -> ~ In ty ("Comment" :: houses) -> lean v = true -> uncommented v ->
  (forall k w, In k (part_keys ty) -> fld v k w -> lean w = true -> uncommented w -> free w) -> free v.
Proof.
  intros ty v A N L U R. destruct v as [| | | | |o]; try discriminate A. apply free_node; [rewrite (type_is o _ A); exact N|]. apply Forall_forall. intros [k w] I. cbn [snd].
  pose proof (type_is o _ A) as T. apply lean_iff in L. destruct L as (O & L).
  assert (Uw : uncommented w).
  { apply (in_map snd) in I. cbn [snd] in I. apply In_nth_error in I. destruct I as (i & Ni). apply (uncommented_sub [i] (JObj o)); [exact U|]. cbn [subtree children]. now rewrite Ni. }
  destruct (L k w I) as [J|(J & Lw)]; [now apply inert_free|]. rewrite T in J. apply (R k); try assumption. unfold fld, oget. now apply once_assoc.
Qed.

Lemma lean_elem : forall l x, lean (JArr l) = true -> In x l -> lean x = true.
Proof. intros l x L I. cbn [lean] in L. rewrite forallb_forall in L. exact (L x I). Qed.

Lemma list_free : forall A (R : A -> json -> Prop) es ns, Forall2 R es ns -> (forall e v, R e v -> lean v = true -> uncommented v -> free v) ->
  lean (JArr ns) = true -> uncommented (JArr ns) -> free (JArr ns).
Proof.
  intros A R es ns F H L U. apply free_list. intros x I.
  assert (E : exists e, R e x) by (clear - F I; induction F as [|e n es ns Q F IH]; [destruct I|destruct I as [<-|I]; [eauto|auto]]).
  destruct E as (e & E). apply (H e x E); [exact (lean_elem ns x L I)|exact (SolStrip.uncommented_elem ns x U I)].
Qed.

Ltac pick I := cbn in I; repeat (destruct I as [<-|I]; [|]); [..|destruct I].
Ltac same_field Fw := lazymatch type of Fw with fld ?v ?k ?w =>
  match goal with
  | F2 : fld v k ?a |- _ =>
      tryif constr_eq Fw F2 then fail else (let Q := fresh "Q" in assert (Q : w = a) by (unfold fld in Fw, F2; congruence); clear Fw; subst w)
  | G : gone v k |- _ => exfalso; unfold gone, fld in *; congruence
  end end.
Ltac plain := cbn; intuition discriminate.

Lemma params_free : forall l v, params_node l v -> lean v = true -> uncommented v -> free v.
Proof.
  intros l v (A & ns & F & N) L U. apply (node_free _ _ A); [plain|exact L|exact U|]. intros k w I Fw Lw Uw. pick I. same_field Fw.
  exact (list_free _ _ _ _ N var_free Lw Uw).
Qed.
Lemma args_free : forall ty name m v, In ty ["ModifierInvocation"; "InheritanceSpecifier"] -> arguments_node ty name m v -> lean v = true -> uncommented v -> free v.
Proof.
  intros ty name m v J (A & _ & M) L U. apply (node_free _ _ A); [cbn in J; repeat (destruct J as [<-|J]; [plain|]); destruct J|exact L|exact U|]. intros k w I Fw Lw Uw.
  assert (Q : k = "arguments") by (cbn in J; repeat (destruct J as [<-|J]; [pick I; reflexivity|]); destruct J). subst k.
  destruct (snd m) as [l|]; [destruct M as (ns & F & N)|]; same_field Fw. exact (list_free _ _ _ _ N exp_free Lw Uw).
Qed.

(** ** Statements *)

Lemma simple_free : forall s v, cnode s v -> is_simple s = true -> lean v = true -> uncommented v -> free v.
Proof.
  intros s v H Si L U. destruct s as [e|l e| | | | | | | | | |]; try discriminate Si; cbn [cnode] in H.
  - destruct H as (A & ve & F & N). apply (node_free _ _ A); [plain|exact L|exact U|]. intros k w I Fw Lw Uw. pick I. same_field Fw. exact (exp_free e ve N Lw Uw).
  - destruct H as (A & (ns & F & N) & M). apply (node_free _ _ A); [plain|exact L|exact U|]. intros k w I Fw Lw Uw. pick I.
    + same_field Fw. apply (list_free _ _ _ _ N); [|exact Lw|exact Uw]. intros [d|] x H Lx Ux; cbn [hole_node] in H; [exact (var_free d x H Lx Ux)|subst x; now apply free_flat].
    + destruct e as [e|]; cbn [xmaybe] in M; [destruct M as (ve & Fe & Ne)|]; same_field Fw. exact (exp_free e ve Ne Lw Uw).
Qed.

Lemma loop_free : forall e v x, is_n v "ExpressionStatement" -> fld v "expression" x -> xnode e x -> lean v = true -> uncommented v -> free v.
Proof. intros e v x A F N. apply (simple_free (CExp e)); [|reflexivity]. cbn [cnode]. split; [exact A|]. exists x. split; [exact F|exact N]. Qed.

Lemma solid_list : forall l, uncommented (JArr l) -> solid l.
Proof. intros [|x l] U; [now left|]. right. exists x. split; [now left|]. exact (uncommented_root x (SolStrip.uncommented_elem (x :: l) x U (or_introl eq_refl))). Qed.

Lemma stmt_housed : forall s v, cnode s v -> stmt_spelled s = true -> lean v = true -> uncommented v -> full i0 v -> housed0 v.
Proof.
  assert (Fr : forall v ty, is_n v ty -> free v -> housed0 v) by (intros v ty A F; apply free_housed; [destruct v; try discriminate A; reflexivity|exact F]).
  induction s as [e|l e|c l IHl|e a b IHa IHb|e s IHs|s e IHs|i e l s IHi IHs|e|e|e|w0|e rs s cs IHs IHc] using sstmt_ind'; intros v H Sp L U Fu.
  - pose proof H as (A & _). exact (Fr v _ A (simple_free _ v H eq_refl L U)).
  - pose proof H as (A & _). exact (Fr v _ A (simple_free _ v H eq_refl L U)).
  - cbn [cnode stmt_spelled] in *. destruct H as (A & ns & F & N). apply block_nodes in N. apply (node_housed _ _ A L U Fu). intros k w I Fw Lw Uw Gw.
    assert (Q : k = "statements") by (destruct c; pick I; reflexivity). subst k. same_field Fw. apply kp_list with true; [destruct c; cbn; tauto|exact (solid_list ns Uw)|]. apply list_iff. apply Forall_forall. intros x Ix.
    assert (E : exists e, In e l /\ cnode e x) by (clear - N Ix; induction N as [|e n es ns Q F IH]; [destruct Ix|destruct Ix as [<-|Ix]; [exists e; split; [now left|exact Q]|destruct (IH Ix) as (e0 & E & E'); exists e0; split; [now right|exact E']]]).
    destruct E as (s & Is & Cs). rewrite Forall_forall in IHl. rewrite forallb_forall in Sp. apply el_housed.
    apply (IHl s Is x Cs (Sp s Is)); [exact (lean_elem ns x Lw Ix)|exact (SolStrip.uncommented_elem ns x Uw Ix)|exact (ev_child _ (JArr ns) x Gw Ix)].
  - cbn [cnode stmt_spelled] in *. destruct H as (A & (ve & Fe & Ne) & (va & Fa & Na) & Hb). apply andb_true_iff in Sp. destruct Sp as (Sp & Sb). apply andb_true_iff in Sp. destruct Sp as (_ & Sa).
    apply (node_housed _ _ A L U Fu). intros k w I Fw Lw Uw Gw. pick I.
    + same_field Fw. apply kp_free. exact (exp_free e ve Ne Lw Uw).
    + same_field Fw. apply kp_body; [cbn; tauto|]. exact (IHa va Na Sa Lw Uw Gw).
    + destruct b as [b|]; [|same_field Fw]. destruct Hb as (vb & Fb & Nb). same_field Fw. apply andb_true_iff in Sb. destruct Sb as (_ & Sb). apply kp_body; [cbn; tauto|]. exact (IHb vb Nb Sb Lw Uw Gw).
  - cbn [cnode stmt_spelled] in *. destruct H as (A & (ve & Fe & Ne) & (va & Fa & Na)). apply andb_true_iff in Sp. destruct Sp as (_ & Sp).
    apply (node_housed _ _ A L U Fu). intros k w I Fw Lw Uw Gw. pick I; same_field Fw; [apply kp_free; exact (exp_free e ve Ne Lw Uw)|apply kp_body; [cbn; tauto|exact (IHs va Na Sp Lw Uw Gw)]].
  - cbn [cnode stmt_spelled] in *. destruct H as (A & (ve & Fe & Ne) & (va & Fa & Na)). apply andb_true_iff in Sp. destruct Sp as (_ & Sp).
    apply (node_housed _ _ A L U Fu). intros k w I Fw Lw Uw Gw. pick I; same_field Fw; [apply kp_free; exact (exp_free e ve Ne Lw Uw)|apply kp_body; [cbn; tauto|exact (IHs va Na Sp Lw Uw Gw)]].
  - cbn [cnode stmt_spelled] in *. destruct H as (A & Hi & He & Hl & (vs & Fs & Ns)). apply andb_true_iff in Sp. destruct Sp as (Sp & Ss). apply andb_true_iff in Sp. destruct Sp as (Sp & _). apply andb_true_iff in Sp. destruct Sp as (Si & _).
    apply (node_housed _ _ A L U Fu). intros k w I Fw Lw Uw Gw. pick I.
    + apply kp_free. destruct i as [i|]; [|same_field Fw]. destruct Hi as (vi & Fi & Ni). same_field Fw. apply andb_true_iff in Si. destruct Si as (Si & _). exact (simple_free i vi Ni Si Lw Uw).
    + apply kp_free. destruct e as [e|]; cbn [xmaybe] in He; [destruct He as (ve & Fe & Ne)|]; same_field Fw. exact (exp_free e ve Ne Lw Uw).
    + apply kp_free. destruct l as [l|]; [destruct Hl as (vl & x & Fl & Al & Fx & Nx)|]; same_field Fw. exact (loop_free l vl x Al Fx Nx Lw Uw).
    + same_field Fw. apply kp_body; [cbn; tauto|]. exact (IHs vs Ns Ss Lw Uw Gw).
  - cbn [cnode] in *. destruct H as (A & He). apply (Fr v _ A). apply (node_free _ _ A); [plain|exact L|exact U|]. intros k w I Fw Lw Uw. pick I.
    destruct e as [e|]; cbn [xmaybe] in He; [destruct He as (ve & Fe & Ne)|]; same_field Fw. exact (exp_free e ve Ne Lw Uw).
  - cbn [cnode] in *. destruct H as (A & (ve & Fe & Ne)). apply (Fr v _ A). apply (node_free _ _ A); [plain|exact L|exact U|]. intros k w I Fw Lw Uw. pick I. same_field Fw. exact (exp_free e ve Ne Lw Uw).
  - cbn [cnode] in *. destruct H as (A & (ve & Fe & Ne)). apply (Fr v _ A). apply (node_free _ _ A); [plain|exact L|exact U|]. intros k w I Fw Lw Uw. pick I. same_field Fw. exact (exp_free e ve Ne Lw Uw).
  - cbn [cnode] in *. destruct H as (ty & J & A). apply (Fr v _ A). apply (node_free _ _ A); [|exact L|exact U|].
    + cbn in J. repeat (destruct J as [J|J]; [injection J as <- _; plain|]). destruct J.
    + intros k w I. cbn in J. repeat (destruct J as [J|J]; [injection J as <- _; pick I|]). destruct J.
  - cbn [cnode] in *. destruct H as (A & _). apply (Fr v _ A). apply (node_free _ _ A); [plain|exact L|exact U|]. intros k w I. pick I.
Qed.

(** ** Members and units *)

Lemma body_kept : forall ty b v w, In (ty, "body") body_fields -> xmaybe cnode b v "body" -> body_spelled b = true -> fld v "body" w -> lean w = true -> uncommented w -> full i0 w -> kept0 ty "body" w.
Proof.
  intros ty b v w I H Sp Fw L U Gw. destruct b as [s|]; cbn [xmaybe] in H; [destruct H as (vs & Fs & Ns)|]; same_field Fw. apply kp_body; [exact I|].
  unfold body_spelled in Sp. cbn [maybe] in Sp. apply andb_true_iff in Sp. destruct Sp as (_ & Sp). exact (stmt_housed s vs Ns Sp L U Gw).
Qed.

Lemma member_housed : forall m v, mnode m v -> member_spelled m = true -> lean v = true -> uncommented v -> full i0 v -> housed0 v.
Proof.
  assert (Fr : forall v ty, is_n v ty -> free v -> housed0 v) by (intros v ty A F; apply free_housed; [destruct v; try discriminate A; reflexivity|exact F]).
  intros m v H Sp L U Fu. destruct m as [d|f|f ps vi o b|f ps an|f ps|f l|f l|f t|lib t g|l t g]; cbn [mnode] in H.
  - pose proof H as (A & _). exact (Fr v _ A (var_free d v H L U)).
  - destruct H as (A & D & K & N & (vp & Fp & Np) & V & Vi & M & O & (nm & Fm & Nm) & (vr & Fv & Nr) & Im & B).
    assert (Sb : body_spelled (sf_body f) = true) by (cbn [member_spelled] in Sp; unfold fun_spelled in Sp; apply andb_true_iff in Sp; apply Sp).
    apply (node_housed _ _ A L U Fu). intros k w I Fw Lw Uw Gw. pick I.
    + same_field Fw. apply kp_free. exact (params_free _ _ Np Lw Uw).
    + same_field Fw. apply kp_free. apply (list_free _ _ _ _ Nm); [|exact Lw|exact Uw]. intros x y. apply args_free. cbn; tauto.
    + same_field Fw. apply kp_free. exact (params_free _ _ Nr Lw Uw).
    + apply (body_kept _ (sf_body f) v w); try assumption. cbn; tauto.
  - destruct H as (A & D & N & (vp & Fp & Np) & V & O & B).
    assert (Sb : body_spelled b = true) by (cbn [member_spelled] in Sp; apply andb_true_iff in Sp; apply Sp).
    apply (node_housed _ _ A L U Fu). intros k w I Fw Lw Uw Gw. pick I.
    + same_field Fw. apply kp_free. exact (params_free _ _ Np Lw Uw).
    + apply (body_kept _ b v w); try assumption. cbn; tauto.
  - destruct H as (A & N & (vp & Fp & Np) & _). apply (Fr v _ A). apply (node_free _ _ A); [plain|exact L|exact U|]. intros k w I Fw Lw Uw. pick I. same_field Fw. exact (params_free _ _ Np Lw Uw).
  - destruct H as (A & N & (vp & Fp & Np)). apply (Fr v _ A). apply (node_free _ _ A); [plain|exact L|exact U|]. intros k w I Fw Lw Uw. pick I. same_field Fw. exact (params_free _ _ Np Lw Uw).
  - destruct H as (A & N & (ns & Fp & Np)). apply (Fr v _ A). apply (node_free _ _ A); [plain|exact L|exact U|]. intros k w I Fw Lw Uw. pick I. same_field Fw. exact (list_free _ _ _ _ Np var_free Lw Uw).
  - destruct H as (A & _). apply (Fr v _ A). apply (node_free _ _ A); [plain|exact L|exact U|]. intros k w I. pick I.
  - destruct H as (A & _). apply (Fr v _ A). apply (node_free _ _ A); [plain|exact L|exact U|]. intros k w I. pick I.
  - destruct H as ((A & T & _) & _). apply (Fr v _ A). apply (node_free _ _ A); [plain|exact L|exact U|]. intros k w I Fw Lw Uw. pick I.
    destruct t as [t|]; cbn [xmaybe] in T; [destruct T as (vt & Ft & Nt)|]; same_field Fw. exact (exp_free t vt Nt Lw Uw).
  - destruct H as ((A & T & _) & _). apply (Fr v _ A). apply (node_free _ _ A); [plain|exact L|exact U|]. intros k w I Fw Lw Uw. pick I.
    destruct t as [t|]; cbn [xmaybe] in T; [destruct T as (vt & Ft & Nt)|]; same_field Fw. exact (exp_free t vt Nt Lw Uw).
Qed.

Lemma Forall2_pick : forall A B (R : A -> B -> Prop) es ns x, Forall2 R es ns -> In x ns -> exists e, In e es /\ R e x.
Proof.
  intros A B R es ns x F I. induction F as [|e n es ns Q F IH]; [destruct I|]. destruct I as [<-|I]; [exists e; split; [now left|exact Q]|]. destruct (IH I) as (e0 & E & E'). exists e0. split; [now right|exact E'].
Qed.

Lemma piece_housed : forall p v, pnode p v -> top_spelled p = true -> lean v = true -> uncommented v -> full i0 v -> housed0 v.
Proof.
  assert (Fr : forall v ty, is_n v ty -> free v -> housed0 v) by (intros v ty A F; apply free_housed; [destruct v; try discriminate A; reflexivity|exact F]).
  intros p v H Sp L U Fu. destruct p as [w0 y|l|file names al|ab kind f bases l|m]; cbn [pnode] in H; [| | | |exact (member_housed m v H Sp L U Fu)].
  1-3: destruct H as (A & _); apply (Fr v _ A); apply (node_free _ _ A); [plain|exact L|exact U|]; intros k w I; pick I.
  destruct H as (A & D & Ab & K & N & (nb & Fb & Nb) & (nl & Fl & Nl)). cbn [top_spelled] in Sp. apply andb_true_iff in Sp. destruct Sp as (_ & Sp). rewrite forallb_forall in Sp.
  apply (node_housed _ _ A L U Fu). intros k w I Fw Lw Uw Gw. pick I.
  - same_field Fw. apply kp_free. apply (list_free _ _ _ _ Nb); [|exact Lw|exact Uw]. intros x y. apply args_free. cbn; tauto.
  - same_field Fw. apply kp_list with true; [cbn; tauto|exact (solid_list nl Uw)|]. apply list_iff. apply Forall_forall. intros x Ix. destruct (Forall2_pick _ _ _ _ _ _ Nl Ix) as (m & Im & Nm). apply el_housed.
    apply (member_housed m x Nm (Sp m Im)); [exact (lean_elem nl x Lw Ix)|exact (SolStrip.uncommented_elem nl x Uw Ix)|exact (ev_child _ (JArr nl) x Gw Ix)].
Qed.

Lemma unit_housed : forall license l v, unit_node license l v -> forallb top_spelled l = true -> lean v = true -> uncommented v -> full i0 v -> housed0 v.
Proof.
  intros license l v (A & Li & ns & Fl & Nl) Sp L U Fu. rewrite forallb_forall in Sp. apply (node_housed _ _ A L U Fu). intros k w I Fw Lw Uw Gw. pick I. same_field Fw.
  apply kp_list with false; [cbn; tauto|exact (solid_list ns Uw)|]. apply list_iff. apply Forall_forall. intros x Ix. destruct (Forall2_pick _ _ _ _ _ _ Nl Ix) as (p & Ip & Np). apply el_housed.
  apply (piece_housed p x Np (Sp p Ip)); [exact (lean_elem ns x Lw Ix)|exact (SolStrip.uncommented_elem ns x Uw Ix)|exact (ev_child _ (JArr ns) x Gw Ix)].
Qed.
End Unit.
