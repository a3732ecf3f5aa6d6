(** Facts about configurations and the parameters of a run. *)
From Coq Require Import String Ascii List NArith ZArith Bool Lia.
From Verif Require Import Base Json JsonFacts SpecJson Rng MutationType OpCommon Language Paths PathFacts TextFacts
  PermFacts Generator SpecGenerator GenFacts Prefs SpecPrefs PrefFacts Config Compiler Cli SpecCli.
Import ListNotations.
Open Scope string_scope.
Open Scope list_scope.

(** ** Round trip of configurations *)

Lemma strings_back l : strings_of (map JStr l) = l.
Proof. unfold strings_of. induction l as [|x l IH]; cbn; congruence. Qed.

Lemma mutations_back l : read_mts (strings_of (map (fun t => JStr (show_mt t)) l)) = l.
Proof.
  rewrite <- (map_map show_mt JStr), strings_back. unfold read_mts. induction l as [|x l IH]; [reflexivity|].
  cbn [map flat_map]. rewrite read_show. cbn. now rewrite IH.
Qed.

Lemma set_obj j k v : is_object j = true -> plain_key k = true -> is_object (set_key j k v) = true.
Proof.
  intros O P. destruct j; try discriminate. rewrite set_key_plain by exact P.
  cbn [oget]. destruct (assoc k o); reflexivity.
Qed.

Ltac key_goal := try reflexivity; try (intro; discriminate).

Lemma get_key_same j k v : is_object j = true -> plain_key k = true -> oget (set_key j k v) k = Some v.
Proof. intros O P. now apply oget_set_key_same. Qed.

Lemma opt_obj {A} (o : option A) k f j : is_object j = true -> plain_key k = true ->
  is_object (set_opt o k f j) = true.
Proof. intros O P. destruct o; [now apply set_obj|exact O]. Qed.
Lemma if_obj b k v j : is_object j = true -> plain_key k = true -> is_object (set_if b k v j) = true.
Proof. intros O P. destruct b; [now apply set_obj|exact O]. Qed.

Lemma opt_same {A} (o : option A) k f j : is_object j = true -> plain_key k = true ->
  oget (set_opt o k f j) k = match o with Some a => Some (f a) | None => oget j k end.
Proof. intros O P. destruct o; [now apply get_key_same|reflexivity]. Qed.
Lemma if_same b k v j : is_object j = true -> plain_key k = true ->
  oget (set_if b k v j) k = if b then Some v else oget j k.
Proof. intros O P. destruct b; [now apply get_key_same|reflexivity]. Qed.
Lemma opt_other {A} (o : option A) k k' f j : plain_key k = true -> k' <> k ->
  oget (set_opt o k f j) k' = oget j k'.
Proof. intros P N. destruct o; [now apply oget_set_key_other|reflexivity]. Qed.
Lemma if_other b k k' v j : plain_key k = true -> k' <> k -> oget (set_if b k v j) k' = oget j k'.
Proof. intros P N. destruct b; [now apply oget_set_key_other|reflexivity]. Qed.

(** Look a key up in a chain of updates. *)
Ltac objs :=
  repeat first [ apply set_obj; [|reflexivity] | apply opt_obj; [|reflexivity] | apply if_obj; [|reflexivity]
               | reflexivity ].
Ltac lookup :=
  repeat first
    [ rewrite get_key_same; [|objs|reflexivity]
    | rewrite opt_same; [|objs|reflexivity]
    | rewrite if_same; [|objs|reflexivity]
    | rewrite oget_set_key_other; [|reflexivity|discriminate]
    | rewrite opt_other; [|reflexivity|discriminate]
    | rewrite if_other; [|reflexivity|discriminate] ].

Lemma key_language d : oget (json_of_details d) "language" = option_map (fun l => JStr (show_language l)) (d_language d).
Proof. unfold json_of_details. lookup. destruct (d_language d); reflexivity. Qed.
Lemma key_filenames d : oget (json_of_details d) "filenames" = Some (JArr (map JStr (d_filenames d))).
Proof. unfold json_of_details. lookup. reflexivity. Qed.
Lemma key_count d : oget (json_of_details d) "num-mutants" = Some (jint (d_count d)).
Proof. unfold json_of_details. lookup. reflexivity. Qed.
Lemma key_seed d : oget (json_of_details d) "seed" = option_map juint (d_seed d).
Proof. unfold json_of_details. lookup. destruct (d_seed d); reflexivity. Qed.
Lemma key_mutations d : oget (json_of_details d) "mutations" =
  if negb (is_nil (d_mutations d)) then Some (JArr (map (fun t => JStr (show_mt t)) (d_mutations d))) else None.
Proof. unfold json_of_details. lookup. destruct (negb _); reflexivity. Qed.
Lemma key_all d : oget (json_of_details d) "all-mutations" = if d_all d then Some (JBool (d_all d)) else None.
Proof. unfold json_of_details. lookup. destruct (d_all d); reflexivity. Qed.
Lemma key_compiler d : oget (json_of_details d) "compiler-details" = option_map json_of_prefs (d_compiler d).
Proof. unfold json_of_details. lookup. destruct (d_compiler d); reflexivity. Qed.
Lemma key_functions d : oget (json_of_details d) "functions" =
  if negb (is_nil (d_functions d)) then Some (JArr (map JStr (d_functions d))) else None.
Proof. unfold json_of_details. lookup. destruct (negb _); reflexivity. Qed.
Lemma key_verify d : oget (json_of_details d) "validate-mutants" = Some (JBool (d_verify d)).
Proof. unfold json_of_details. lookup. reflexivity. Qed.
Lemma key_outdir d : oget (json_of_details d) "output-directory" = option_map JStr (d_outdir d).
Proof. unfold json_of_details. lookup. destruct (d_outdir d); reflexivity. Qed.
Lemma key_original d : oget (json_of_details d) "print-original" = Some (JBool (d_original d)).
Proof. unfold json_of_details. lookup. reflexivity. Qed.

Lemma language_back l : read_language (show_language l) = Some l.
Proof. destruct l; reflexivity. Qed.

Lemma i64_back z : (- 2 ^ 63 <= z < 2 ^ 63)%Z -> as_i64 (jint z) = Some z.
Proof.
  intro R. unfold jint. destruct (z <? 0)%Z eqn:E; [reflexivity|]. apply Z.ltb_ge in E. cbn.
  assert (L : (Z.to_N z <? 9223372036854775808)%N = true) by (apply N.ltb_lt; lia).
  rewrite L. now rewrite Z2N.id.
Qed.

Lemma seed_back n : (n < 2 ^ 63)%N -> option_map z_as_u64 (as_i64 (juint n)) = Some n.
Proof.
  intro R. cbn. assert (L : (n <? 9223372036854775808)%N = true) by (now apply N.ltb_lt).
  rewrite L. cbn. unfold z_as_u64. rewrite Z.mod_small by lia. now rewrite N2Z.id.
Qed.

Definition good_compiler (c : option prefs) : Prop :=
  forall p, c = Some p -> rust_value (PMap p) /\ storable (PMap p).

Lemma details_back d l :
  d_language d = Some l ->
  (- 2 ^ 63 <= d_count d < 2 ^ 63)%Z ->
  (forall s, d_seed d = Some s -> (s < 2 ^ 63)%N) ->
  good_compiler (d_compiler d) ->
  exists d', details_of_json (json_of_details d) = Ok d' /\ same_details d d'.
Proof.
  intros Hl Hc Hs Hp. unfold details_of_json, contains_key, get_str, get_array, get_int, get_bool.
  rewrite !kget_plain by reflexivity.
  rewrite key_language, key_filenames, key_count, key_seed, key_mutations, key_all, key_compiler, key_functions,
    key_verify, key_outdir, key_original.
  rewrite Hl. cbn [option_map negb orb as_str as_array as_bool or_else]. rewrite language_back.
  assert (C : exists c, match option_map json_of_prefs (d_compiler d) with
                        | Some node => let? p := prefs_of_json node in Ok (Some p)
                        | None => Ok None
                        end = Ok c /\ both same_prefs (d_compiler d) c).
  { destruct (d_compiler d) as [p|] eqn:E; [|exists None; split; [reflexivity|constructor]].
    destruct (Hp p eq_refl) as [R S]. destruct (prefs_back p R S) as (q & B & Q & _).
    exists (Some q). cbn [option_map]. rewrite B. split; [reflexivity|now constructor]. }
  destruct C as (c & -> & Cc). cbn [bind]. eexists. split; [reflexivity|].
  constructor; cbn; try reflexivity; try assumption.
  - now rewrite strings_back.
  - now rewrite i64_back.
  - destruct (d_seed d) as [s|] eqn:E; cbn [option_map]; [|reflexivity]. symmetry. apply seed_back. now apply Hs.
  - destruct (d_mutations d) as [|t r] eqn:E; [reflexivity|]. cbn [is_nil negb option_map as_array or_else].
    now rewrite mutations_back.
  - destruct (d_all d); reflexivity.
  - destruct (d_functions d) as [|t r] eqn:E; [reflexivity|]. cbn [is_nil negb option_map as_array or_else].
    now rewrite strings_back.
  - destruct (d_outdir d); reflexivity.
Qed.

(** ** The name of the saved configuration *)

Lemma before_last_dot_slash s p : str_contains "/"%char s = false -> before_last_dot s = Some p ->
  str_contains "/"%char p = false.
Proof.
  revert p. induction s as [|c s IH]; intros p H E; [discriminate|].
  cbn [str_contains] in H. destruct (Ascii.eqb "/" c) eqn:H1; [discriminate|]. cbn in E.
  destruct (before_last_dot s) as [q|].
  - inversion E; subst. cbn [str_contains]. rewrite H1. now apply IH.
  - destruct (Ascii.eqb c "."); [|discriminate]. now inversion E.
Qed.

Lemma stem_no_slash s : str_contains "/"%char s = false -> str_contains "/"%char (file_stem s) = false.
Proof.
  intro H. unfold file_stem. destruct (before_last_dot s) eqn:E; [|exact H]. eapply before_last_dot_slash; eauto.
Qed.

Lemma after_last_dot_app a : after_last_dot (String.append a ".mgnx") = Some "mgnx".
Proof. induction a as [|c a IH]; [reflexivity|]. cbn. now rewrite IH. Qed.

Lemma config_extension file outdir base cfg :
  file_name file = Some base -> file_stem base <> "" -> config_name file outdir = Ok cfg ->
  path_extension cfg = Some "mgnx".
Proof.
  intros F S C. unfold config_name in C. rewrite F in C. injection C as <-.
  pose proof (file_name_proper _ _ F) as (_ & _ & _ & B). apply stem_no_slash in B.
  assert (P : proper (String.append (file_stem base) ".mgnx")).
  { destruct (file_stem base) as [|c s] eqn:E; [contradiction|]. repeat split.
    - discriminate.
    - cbn. destruct s; discriminate.
    - cbn. destruct s as [|c' s]; [discriminate|]. destruct s; discriminate.
    - rewrite str_contains_app, B. reflexivity. }
  unfold path_extension. rewrite file_name_join by exact P.
  destruct (file_stem base) as [|c s]; [contradiction|]. cbn. apply after_last_dot_app.
Qed.

(** ** Preferences of the command line *)

(** Inserting a good value under an ordinary key keeps a store good. *)
Lemma hm_insert_in {A} k (v : A) m x : In x (hm_insert k v m) -> x = (k, v) \/ In x m.
Proof.
  unfold hm_insert. destruct (assoc k m); [|cbn; intuition].
  induction m as [|[k' w] m IH]; cbn; [tauto|]. destruct (String.eqb_spec k k') as [->|N]; cbn; intuition.
Qed.

Definition good (v : pval) : Prop := rust_value v /\ storable v.

Lemma good_map m : NoDup (map fst m) -> Forall (fun kv => ordinary (fst kv) /\ good (snd kv)) m -> good (PMap m).
Proof.
  intros N F. split; constructor; try assumption; (eapply Forall_impl; [|exact F]); intros ? (? & ? & ?); auto.
Qed.
Lemma good_map_inv m : good (PMap m) -> NoDup (map fst m) /\ Forall (fun kv => ordinary (fst kv) /\ good (snd kv)) m.
Proof.
  intros [R S]. apply rust_map_inv in R as [N R]. apply st_map_inv in S as [O S]. split; [exact N|].
  rewrite Forall_forall in *. intros x I. unfold good. auto.
Qed.

Lemma good_insert k v m : ordinary k -> good v -> good (PMap m) -> good (PMap (hm_insert k v m)).
Proof.
  intros O V M. apply good_map_inv in M as [N F]. apply good_map; [now apply hm_insert_nodup|].
  rewrite Forall_forall in *. intros x I. apply hm_insert_in in I as [->|I]; auto.
Qed.

Lemma good_str s : good (PStr s).
Proof. split; constructor. Qed.
Lemma good_strs l : good (PArr (map PStr l)).
Proof. split; constructor; rewrite Forall_forall; intros x I; apply in_map_iff in I as (s & <- & _); constructor. Qed.
Lemma good_new : good (PMap new_prefs).
Proof. apply good_map; constructor. Qed.
Lemma good_opt p k o : ordinary k -> good (PMap p) -> good (PMap (set_string_opt p k o)).
Proof. intros O P. destruct o; [apply good_insert; [exact O|apply good_str|exact P]|exact P]. Qed.
Lemma good_list p k l : ordinary k -> good (PMap p) -> good (PMap (set_strings p k l)).
Proof. intros O P. unfold set_strings. destruct (is_nil l); [exact P|]. apply good_insert; [exact O|apply good_strs|exact P]. Qed.

Ltac ord := split; reflexivity.

Lemma good_sol s : good (PMap (sol_to_prefs s)).
Proof.
  unfold sol_to_prefs.
  apply good_opt; [ord|]. apply good_list; [ord|]. apply good_list; [ord|]. apply good_list; [ord|].
  apply good_opt; [ord|]. apply good_insert; [ord|apply good_str|apply good_new].
Qed.
Lemma good_vy s : good (PMap (vy_to_prefs s)).
Proof. unfold vy_to_prefs. apply good_opt; [ord|]. apply good_insert; [ord|apply good_str|apply good_new]. Qed.

Definition compiler_settings (s : settings) (l : language) : prefs :=
  match l with LSolidity => sol_to_prefs (st_solidity s) | LVyper => vy_to_prefs (st_vyper s) end.

Lemma to_prefs_compiler s l : compiler_prefs (to_prefs s) l = Some (compiler_settings s l).
Proof. destruct l; reflexivity. Qed.

Lemma to_prefs_language s l : get_prefs (to_prefs s) (show_language l)
  = Some (set_prefs new_prefs "compiler" (compiler_settings s l)).
Proof. destruct l; reflexivity. Qed.

Lemma to_prefs_details s : get_prefs (to_prefs s) "compiler-details" = None.
Proof. reflexivity. Qed.

Lemma with_compiler_get s l c : compiler_prefs (with_compiler (to_prefs s) l (Some c)) l = Some c.
Proof.
  unfold with_compiler. rewrite to_prefs_language. unfold compiler_prefs, get_prefs, set_prefs.
  now rewrite !hm_insert_same.
Qed.

(** ** Running the saved configuration *)

Lemma count_back n : (N.of_nat n < 2 ^ 64)%N -> N.to_nat (z_as_u64 (n_as_i64 (N.of_nat n))) = n.
Proof.
  intro L. unfold n_as_i64, z_as_u64. destruct (N.of_nat n <? 9223372036854775808)%N eqn:E.
  - rewrite Z.mod_small by lia. lia.
  - replace (Z.of_N (N.of_nat n) - 18446744073709551616)%Z with (Z.of_N (N.of_nat n) + (-1) * 18446744073709551616)%Z by lia.
    rewrite Z.mod_add by lia. rewrite Z.mod_small by lia. lia.
Qed.

(** Preferences read from JSON with ordinary keys can be stored. *)
Lemma ordinary_keys_obj o : ordinary_keys (JObj o) ->
  Forall (fun kv => ordinary (fst kv) /\ ordinary_keys (snd kv)) o.
Proof.
  intro K. rewrite Forall_forall. intros kv I. split; [apply (K [] o); [reflexivity|now apply in_map]|].
  apply In_nth_error in I as [i E]. intros p o' k S. apply (K (i :: p) o' k). cbn.
  rewrite nth_error_map, E. exact S.
Qed.
Lemma ordinary_keys_arr l : ordinary_keys (JArr l) -> Forall ordinary_keys l.
Proof.
  intro K. rewrite Forall_forall. intros x I. apply In_nth_error in I as [i E]. intros p o k S.
  apply (K (i :: p) o k). cbn. now rewrite E.
Qed.

Lemma good_fold o : Forall (fun kv => ordinary (fst kv) /\ good (pval_of_json (snd kv))) o ->
  forall m, good (PMap m) ->
  good (PMap (fold_left (fun m kv => hm_insert (fst kv) (pval_of_json (snd kv)) m) o m)).
Proof.
  induction 1 as [|kv o [O G] F IH]; intros m M; [exact M|]. cbn. apply IH. now apply good_insert.
Qed.

Lemma good_of_json j : canonical j -> ordinary_keys j -> good (pval_of_json j).
Proof.
  induction j as [|b|x|s|l IH|o IH] using json_ind'; intros C K; try solve [split; constructor].
  - destruct C as [_ B]. specialize (B [] _ eq_refl). destruct x as [n|z|mm e]; cbn.
    + destruct (n <? 9223372036854775808)%N eqn:E; [|destruct (round_f64 _); split; constructor].
      split; constructor. apply N.ltb_lt in E. lia.
    + split; constructor. lia.
    + split; constructor.
  - apply canonical_arr in C. apply ordinary_keys_arr in K. cbn.
    assert (F : Forall good (map pval_of_json l)).
    { rewrite Forall_forall in *. intros v I. apply in_map_iff in I as (j & <- & I). auto. }
    split; constructor; (eapply Forall_impl; [|exact F]); intros ? []; assumption.
  - apply canonical_obj in C as [_ C]. apply ordinary_keys_obj in K. rewrite pval_of_obj.
    apply good_fold; [|apply good_map; constructor]. rewrite Forall_forall in *.
    intros kv I. split; [apply (K _ I)|]. apply (IH _ I); [apply (C _ I)|apply (K _ I)].
Qed.

Lemma good_prefs j p : canonical j -> ordinary_keys j -> prefs_of_json j = Ok p -> good (PMap p).
Proof.
  intros C K E. destruct j; try discriminate. cbn [prefs_of_json] in E. injection E as <-.
  rewrite <- pval_of_obj. now apply good_of_json.
Qed.

(** The general case. *)
Lemma reproduces l g base c :
  file_name (rp_file (gp_run g)) = Some base -> file_stem base <> "" ->
  (gp_seed g < 2 ^ 63)%N -> gp_rng g = gp_seed g ->
  (N.of_nat (rp_count (gp_run g)) < 2 ^ 64)%N ->
  rp_outdir (gp_run g) <> "stdout" ->
  get_prefs (gp_prefs g) "compiler-details" = None ->
  compiler_prefs (gp_prefs g) l = Some c -> good (PMap c) ->
  forall cfg m now,
    config_name (rp_file (gp_run g)) (rp_outdir (gp_run g)) = Ok cfg ->
    m_json m cfg = Some (json_of_details (saved_details l g)) ->
    exists g', assemble m now (mutate_files [cfg]) = Ok [g'] /\ same_run l g g' /\ rp_stdout (gp_run g') = false.
Proof.
  intros F S Hs Hr Hc Ho Hd Hp Hg cfg m now C M.
  assert (X := config_extension _ _ _ _ F S C).
  set (d := saved_details l g) in *.
  assert (Dc : d_compiler d = Some c).
  { unfold d, saved_details; cbn. rewrite Hd. unfold compiler_prefs in Hp.
    destruct (get_prefs (gp_prefs g) (show_language l)); [exact Hp|discriminate]. }
  destruct (details_back d l) as (d' & R & D).
  - reflexivity.
  - cbn. unfold n_as_i64. destruct (N.of_nat (rp_count (gp_run g)) <? 9223372036854775808)%N eqn:E;
      [apply N.ltb_lt in E; lia|apply N.ltb_ge in E; lia].
  - intros s E. inversion E; subst. exact Hs.
  - intros p E. rewrite Dc in E. inversion E; subst. exact Hg.
  - assert (Rc : forall p, recognize m p cfg = Ok (l, FConfig)).
    { intro p. unfold recognize, recognize_config. rewrite X. cbn [String.eqb]. rewrite M.
      unfold get_str. rewrite kget_plain by reflexivity. rewrite key_language. cbn. now rewrite language_back. }
    assert (Rd : read_config (m_json m) cfg = Ok d').
    { unfold read_config. rewrite X. cbn. now rewrite M. }
    unfold assemble. cbn [ma_files mutate_files assemble_from]. rewrite Rc. cbn [bind snd]. rewrite Rd. cbn [bind fst].
    destruct D as [D1 D2 D3 D4 D5 D6 D7 D8 D9 D10 D11]. rewrite <- D2. cbn [d_filenames saved_details d map app].
    eexists. split; [reflexivity|].
    assert (Eo : (rp_outdir (gp_run g) =?s "stdout") = false) by (now apply String.eqb_neq).
    split; [|cbn; rewrite <- D9; cbn; now rewrite Eo].
    constructor; cbn [config_params gp_run gp_rng gp_prefs rp_file rp_count rp_outdir
      rp_types rp_verify rp_original rp_functions]; rewrite <- ?D3, <- ?D4, <- ?D5, <- ?D6, <- ?D7, <- ?D8, <- ?D9, <- ?D10; cbn.
    + reflexivity.
    + symmetry. now apply count_back.
    + exact Hr.
    + now rewrite Eo.
    + destruct (rp_types (gp_run g)); reflexivity.
    + reflexivity.
    + reflexivity.
    + destruct (rp_functions (gp_run g)); reflexivity.
    + change (both same_prefs (compiler_prefs (gp_prefs g) l)
        (compiler_prefs (with_compiler (to_prefs default_settings) l (d_compiler d')) l)).
      rewrite Hp. rewrite Dc in D11. inversion D11 as [|x y Q E1 E2]. rewrite with_compiler_get. now constructor.
Qed.

(** ** What the assembled parameters look like *)

(** The compiler settings after a configuration file. *)
Lemma with_compiler_other s l l' c : l <> l' ->
  compiler_prefs (with_compiler (to_prefs s) l (Some c)) l' = compiler_prefs (to_prefs s) l'.
Proof. destruct l, l'; try congruence; reflexivity. Qed.
Lemma with_compiler_details s l c : get_prefs (with_compiler (to_prefs s) l c) "compiler-details" = None.
Proof. destruct c, l; reflexivity. Qed.

(** Where a set of parameters comes from. *)
Definition from_file (m : machine) (a : mutate_args) (rng0 seed : N) (f : string) (g : gparams) : Prop :=
  (recognize_config m f = None /\ (exists l t, recognize m (to_prefs (ma_settings a)) f = Ok (l, t)) /\
   g = plain_params a (requested_types a) (to_prefs (ma_settings a)) seed rng0 f) \/
  (exists l d file, recognize_config m f = Some l /\ read_config (m_json m) f = Ok d /\ In file (d_filenames d) /\
   g = config_params a (requested_types a) (to_prefs (ma_settings a)) l d (or_else (d_seed d) seed) file).

Lemma recognize_plain m p f l t : recognize m p f = Ok (l, t) -> t <> FConfig -> recognize_config m f = None.
Proof. intros R T. unfold recognize in R. destruct (recognize_config m f); [inversion R; congruence|reflexivity]. Qed.
Lemma recognize_conf m p f l : recognize m p f = Ok (l, FConfig) -> recognize_config m f = Some l.
Proof.
  intro R. unfold recognize in R. destruct (recognize_config m f) as [l'|]; [now inversion R|].
  destruct (is_source m LSolidity p f) as [[]| | |]; try discriminate. cbn [bind] in R.
  destruct (is_source m LVyper p f) as [[]| | |]; try discriminate. cbn [bind] in R.
  destruct (is_ast_file m LSolidity f); [discriminate|]. destruct (is_ast_file m LVyper f); discriminate.
Qed.

Lemma member m a rng0 files : forall seed gs g,
  assemble_from m a (requested_types a) (to_prefs (ma_settings a)) rng0 seed files = Ok gs -> In g gs ->
  exists f s, In f files /\ from_file m a rng0 s f g.
Proof.
  induction files as [|f rest IH]; intros seed gs g A I; [injection A as <-; destruct I|].
  cbn [assemble_from] in A. destruct (recognize m _ f) as [[l t]| | |] eqn:R; try discriminate. cbn [bind snd fst] in A.
  assert (K : t <> FConfig -> (let? more := assemble_from m a (requested_types a) (to_prefs (ma_settings a)) rng0 seed rest in
    Ok (plain_params a (requested_types a) (to_prefs (ma_settings a)) seed rng0 f :: more)) = Ok gs ->
    exists f0 s, In f0 (f :: rest) /\ from_file m a rng0 s f0 g).
  { intros T B. destruct (assemble_from m a _ _ rng0 seed rest) as [more| | |] eqn:E; try discriminate.
    cbn [bind] in B. injection B as <-. destruct I as [<-|I].
    - exists f, seed. split; [now left|]. left. split; [now apply (recognize_plain m _ f l t R)|]. split; [eauto|reflexivity].
    - destruct (IH _ _ _ E I) as (f' & s & I' & H). exists f', s. split; [now right|exact H]. }
  destruct t; [apply K; [discriminate|exact A] ..|].
  destruct (read_config (m_json m) f) as [d| | |] eqn:D; try discriminate. cbn [bind] in A.
  destruct (assemble_from m a _ _ rng0 (or_else (d_seed d) seed) rest) as [more| | |] eqn:E; try discriminate.
  cbn [bind] in A. injection A as <-. apply in_app_or in I as [I|I].
  - apply in_map_iff in I as (file & <- & I). exists f, seed. split; [now left|]. right.
    exists l, d, file. split; [now apply (recognize_conf m _ f l R)|]. auto.
  - destruct (IH _ _ _ E I) as (f' & s & I' & H). exists f', s. split; [now right|exact H].
Qed.

Lemma details_compiler load f j d c : load f = Some j -> read_config load f = Ok d -> d_compiler d = Some c ->
  exists node, oget j "compiler-details" = Some node /\ prefs_of_json node = Ok c.
Proof.
  intros L R C. unfold read_config in R. destruct (path_extension f) as [x|]; [|discriminate].
  destruct (negb (x =?s "mgnx")); [discriminate|]. rewrite L in R. unfold details_of_json in R.
  destruct (negb _ || negb _)%bool; [discriminate|]. destruct (get_str j "language"); [|discriminate].
  destruct (read_language s); [|discriminate].
  destruct (oget j "compiler-details") as [node|].
  - destruct (prefs_of_json node) as [p| | |] eqn:P; try discriminate. cbn [bind] in R. injection R as <-. cbn in C.
    injection C as ->. eauto.
  - cbn [bind] in R. injection R as <-. discriminate.
Qed.

Lemma recognized_json m f l : recognize_config m f = Some l -> exists j, m_json m f = Some j.
Proof.
  intro R. unfold recognize_config in R. destruct (path_extension f) as [x|]; [|discriminate].
  destruct (x =?s "mgnx"); [|discriminate]. destruct (m_json m f); [eauto|discriminate].
Qed.

Lemma canonical_member j k c : canonical j -> oget j k = Some c -> canonical c.
Proof.
  intros C O. destruct j; try discriminate. apply canonical_obj in C as [_ C]. cbn in O.
  apply assoc_in in O. rewrite Forall_forall in C. exact (C _ O).
Qed.

Lemma member_compiler m a rng0 s f g l : canonical_files m -> ordinary_configs m a -> In f (ma_files a) ->
  from_file m a rng0 s f g ->
  get_prefs (gp_prefs g) "compiler-details" = None /\
  exists c, compiler_prefs (gp_prefs g) l = Some c /\ good (PMap c).
Proof.
  intros Cf Oc I H.
  assert (Gs : good (PMap (compiler_settings (ma_settings a) l))) by (destruct l; [apply good_sol|apply good_vy]).
  destruct H as [(_ & _ & ->)|(l' & d & file & R & D & _ & ->)]; cbn [plain_params config_params gp_prefs].
  - split; [reflexivity|]. rewrite to_prefs_compiler. eauto.
  - split; [apply with_compiler_details|]. destruct (d_compiler d) as [c|] eqn:E.
    + destruct (recognized_json m f l' R) as (j & J). destruct (details_compiler _ _ _ _ _ J D E) as (node & N & P).
      assert (G : good (PMap c)).
      { apply (good_prefs node); [apply (canonical_member j "compiler-details"); [now apply (Cf f)|exact N]| |exact P].
        now apply (Oc f j). }
      assert (L : l' = l \/ l' <> l) by (destruct l, l'; auto; right; discriminate).
      destruct L as [->|L]; [rewrite with_compiler_get; eauto|].
      rewrite with_compiler_other by exact L. rewrite to_prefs_compiler. eauto.
    + cbn [with_compiler]. rewrite to_prefs_compiler. eauto.
Qed.
