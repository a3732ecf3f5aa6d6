(** AST traversal (ast.rs), the three visitors of mutation_visitor.rs and the
    interface of a mutation operator (mutator.rs, mutator_result.rs). *)
From Coq Require Import String List NArith ZArith Bool.
From Verif Require Import Base Json Rng Permissions MutationType.
Import ListNotations.
Open Scope string_scope.
Open Scope list_scope.

(** ** Operators *)

(** [MutatorResult] (mutator_result.rs:7-19). *)
Record mutator_result : Type := {
  mr_type : option mutation_type;
  mr_index : option nat;
  mr_node : option N;
  mr_hash : option string
}.

(** [MutatorResult::new] (mutator_result.rs:22-31). *)
Definition empty_result : mutator_result :=
  {| mr_type := None; mr_index := None; mr_node := None; mr_hash := None |}.

(** Everything a call of [Mutator::mutate] leaves behind: the rewritten node,
    its result record, the comment node subsequently returned by
    [get_comment_node], and the generator state. *)
Record mutated : Type := {
  md_node : json;
  md_result : mutator_result;
  md_comment : option json;
  md_rng : rng
}.

(** [trait Mutator] (mutator.rs).  [is_mutable_node] receives the generator in
    Rust but no implementation draws from it.  [mu_mutate] receives fuel for
    its retry loops. *)
Record mutator : Type := {
  mu_type : mutation_type;
  mu_mutable : json -> res bool;
  mu_mutate : nat -> json -> rng -> res mutated
}.

(** ** Permission checks (mutation_visitor.rs:23-84)

    Both languages use the namer [get_str_for_key("name")]
    (solidity/language_interface.rs:158, vyper/language_interface.rs). *)
Definition name_of (n : json) : option string := get_str n "name".

Definition may_visit (ps : permissions) (n : json) : bool :=
  match name_of n with
  | Some s => have_permission ps (PVisit (SName (OValue s Allow)))
  | None => have_permission ps (PVisit (SAny Allow))
  end.

Definition may_mutate (ps : permissions) (n : json) : bool :=
  match name_of n with
  | Some s => have_permission ps (PMutate (SName (OValue s Allow)))
  | None => have_permission ps (PMutate (SName (OAny Allow)))
  end.

Definition may_mutate_children (ps : permissions) (n : json) : bool :=
  match name_of n with
  | Some s => have_permission ps (PMutate (SChildren (OValue s Allow)))
  | None => have_permission ps (PMutate (SChildren (OAny Allow)))
  end.

(** ** [ASTTraverser::traverse] (ast.rs:45-89)

    The visitors used with it have empty [on_enter]/[on_exit] (except the
    pretty printer, modelled separately). *)
Record visitor (St : Type) : Type := {
  v_perm : json -> bool;                       (* have_permission_to_visit *)
  v_visit : St -> json -> res (St * bool);     (* visit; true = stop *)
  v_children : json -> bool;                   (* visit_children *)
  v_start : St -> json -> St;                  (* on_start_visit_children *)
  v_end : St -> json -> St                     (* on_end_visit_children *)
}.
Arguments v_perm {St}. Arguments v_visit {St}. Arguments v_children {St}.
Arguments v_start {St}. Arguments v_end {St}.

Fixpoint traverse {St} (v : visitor St) (n : json) (s : St) : res (St * bool) :=
  if v_perm v n then
    let? (s1, stop) := v_visit v s n in
    if stop then Ok (s1, true)
    else if v_children v n then
      let s2 := v_start v s1 n in
      let? (s3, stop) :=
        match n with
        | JArr l =>
            (fix go (l : list json) (s : St) : res (St * bool) :=
               match l with
               | [] => Ok (s, false)
               | x :: l => let? (s', stop) := traverse v x s in
                           if stop then Ok (s', true) else go l s'
               end) l s2
        | JObj o =>
            (fix go (o : list (string * json)) (s : St) : res (St * bool) :=
               match o with
               | [] => Ok (s, false)
               | (_, x) :: o => let? (s', stop) := traverse v x s in
                                if stop then Ok (s', true) else go o s'
               end) o s2
        | _ => Ok (s2, false)
        end in
      Ok (v_end v s3 n, stop)
    else Ok (s1, false)
  else Ok (s, false).

(** ** [ASTTraverser::traverse_mut] (ast.rs:105-154)

    [vm_visit] returns [Some n'] when it rewrote the node and asks to stop, and
    [None] when it left the node alone and asks to continue.  (The only
    [VisitorMut] of the crate, [MutationMaker], never rewrites a node without
    stopping.) *)
Record visitor_mut (St : Type) : Type := {
  vm_perm : json -> bool;
  vm_visit : St -> json -> res (St * option json);
  vm_children : json -> bool;
  vm_start : St -> json -> St;
  vm_end : St -> json -> St
}.
Arguments vm_perm {St}. Arguments vm_visit {St}. Arguments vm_children {St}.
Arguments vm_start {St}. Arguments vm_end {St}.

Fixpoint traverse_mut {St} (v : visitor_mut St) (n : json) (s : St) : res (json * St * bool) :=
  if vm_perm v n then
    let? (s1, change) := vm_visit v s n in
    match change with
    | Some n' => Ok (n', s1, true)
    | None =>
        if vm_children v n then
          let s2 := vm_start v s1 n in
          let? (n', s3, stop) :=
            match n with
            | JArr l =>
                let? (l', s', stop) :=
                  (fix go (l : list json) (s : St) : res (list json * St * bool) :=
                     match l with
                     | [] => Ok ([], s, false)
                     | x :: l =>
                         let? (x', s', stop) := traverse_mut v x s in
                         if stop then Ok (x' :: l, s', true)
                         else let? (l', s'', stop) := go l s' in Ok (x' :: l', s'', stop)
                     end) l s2 in
                Ok (JArr l', s', stop)
            | JObj o =>
                let? (o', s', stop) :=
                  (fix go (o : list (string * json)) (s : St)
                     : res (list (string * json) * St * bool) :=
                     match o with
                     | [] => Ok ([], s, false)
                     | (k, x) :: o =>
                         let? (x', s', stop) := traverse_mut v x s in
                         if stop then Ok ((k, x') :: o, s', true)
                         else let? (o', s'', stop) := go o s' in Ok ((k, x') :: o', s'', stop)
                     end) o s2 in
                Ok (JObj o', s', stop)
            | _ => Ok (n, s2, false)
            end in
          Ok (n', vm_end v s3 n', stop)
        else Ok (n, s1, false)
    end
  else Ok (n, s, false).

(** ** [PathVisitor] (mutation_visitor.rs:90-155) *)

(** [NodePathMap]: [HashMap<u64, Vec<u64>>]; later insertions win. *)
Definition path_map := list (N * list N).

Fixpoint pm_get (id : N) (m : path_map) : option (list N) :=
  match m with
  | [] => None
  | (i, p) :: m => if N.eqb i id then Some p else pm_get id m
  end.

Record path_state : Type := { ps_map : path_map; ps_path : list N }.

Definition path_visitor (ps : permissions) (idm : json -> option N) : visitor path_state := {|
  v_perm := may_visit ps;
  v_visit := fun s n =>
    match idm n with
    | Some i => Ok ({| ps_map := (i, ps_path s ++ [i]) :: ps_map s; ps_path := ps_path s |}, false)
    | None => Ok (s, false)
    end;
  v_children := fun _ => true;
  v_start := fun s n =>
    match idm n with
    | Some i => {| ps_map := ps_map s; ps_path := ps_path s ++ [i] |}
    | None => s
    end;
  v_end := fun s n =>
    match idm n with
    | Some _ => {| ps_map := ps_map s; ps_path := removelast (ps_path s) |}
    | None => s
    end
|}.

(** [calculate_node_paths] (json_ast_language_interface.rs:282-297). *)
Definition calculate_node_paths (ps : permissions) (idm : json -> option N) (ast : json)
  : res path_map :=
  let? (s, _) := traverse (path_visitor ps idm) ast {| ps_map := []; ps_path := [] |} in
  Ok (ps_map s).

(** ** [MutableNodesCounter] (mutation_visitor.rs:159-247)

    The mutator map is a [HashMap]: its iteration order is the order of the
    list, which theorems leave arbitrary. *)
Definition mutator_map := list (mutation_type * mutator).
Definition count_table := list (mutation_type * nat).

Fixpoint ct_get (t : mutation_type) (c : count_table) : option nat :=
  match c with
  | [] => None
  | (t', n) :: c => if mt_eqb t t' then Some n else ct_get t c
  end.

Fixpoint ct_bump (t : mutation_type) (c : count_table) : count_table :=
  match c with
  | [] => [(t, 1)]
  | (t', n) :: c => if mt_eqb t t' then (t', S n) :: c else (t', n) :: ct_bump t c
  end.

Record count_state : Type := { cs_table : count_table; cs_skip : bool }.

Fixpoint count_node (ms : mutator_map) (n : json) (c : count_table) : res count_table :=
  match ms with
  | [] => Ok c
  | (t, m) :: ms =>
      let? b := mu_mutable m n in
      count_node ms n (if b then ct_bump t c else c)
  end.

Definition count_visitor (ps : permissions) (ms : mutator_map) : visitor count_state := {|
  v_perm := may_visit ps;
  v_visit := fun s n =>
    if (cs_skip s || may_mutate ps n)%bool then
      let? c := count_node ms n (cs_table s) in
      Ok ({| cs_table := c; cs_skip := cs_skip s |}, false)
    else Ok (s, false);
  v_children := fun _ => true;
  v_start := fun s n =>
    if may_mutate_children ps n then {| cs_table := cs_table s; cs_skip := true |} else s;
  v_end := fun s n =>
    if may_mutate_children ps n then {| cs_table := cs_table s; cs_skip := false |} else s
|}.

(** [count_mutable_nodes] (json_ast_language_interface.rs:105-130). *)
Definition count_mutable_nodes (ps : permissions) (ms : mutator_map) (ast : json)
  : res count_table :=
  let? (s, _) := traverse (count_visitor ps ms) ast {| cs_table := []; cs_skip := false |} in
  Ok (cs_table s).

(** ** [MutationMaker] (mutation_visitor.rs:256-381) *)
Record maker_state : Type := {
  mk_index : nat;                       (* current_index *)
  mk_skip : bool;                       (* skip_mutation_permission_check *)
  mk_node_id : N;                       (* mutated_node_id *)
  mk_comment : option json;             (* mutator_comment *)
  mk_result : mutator_result;           (* mutation_results *)
  mk_error : option string;             (* error *)
  mk_rng : rng
}.

Definition maker_start (r : rng) : maker_state := {|
  mk_index := 0; mk_skip := false; mk_node_id := 0%N; mk_comment := None;
  mk_result := empty_result; mk_error := None; mk_rng := r
|}.

Definition with_skip (b : bool) (s : maker_state) : maker_state := {|
  mk_index := mk_index s; mk_skip := b; mk_node_id := mk_node_id s;
  mk_comment := mk_comment s; mk_result := mk_result s; mk_error := mk_error s;
  mk_rng := mk_rng s
|}.

Definition bump_index (s : maker_state) : maker_state := {|
  mk_index := S (mk_index s); mk_skip := mk_skip s; mk_node_id := mk_node_id s;
  mk_comment := mk_comment s; mk_result := mk_result s; mk_error := mk_error s;
  mk_rng := mk_rng s
|}.

(** State after a successful [mutate] (mutation_visitor.rs:332-349). *)
Definition after_mutation (idm : json -> option N) (s : maker_state) (d : mutated) : maker_state := {|
  mk_index := mk_index s; mk_skip := mk_skip s;
  mk_node_id := match mr_node (md_result d) with
                | Some i => i
                | None => match idm (md_node d) with Some i => i | None => mk_node_id s end
                end;
  mk_comment := md_comment d; mk_result := md_result d; mk_error := None;
  mk_rng := md_rng d
|}.

Definition with_error (e : string) (s : maker_state) : maker_state := {|
  mk_index := mk_index s; mk_skip := mk_skip s; mk_node_id := mk_node_id s;
  mk_comment := mk_comment s; mk_result := mk_result s; mk_error := Some e;
  mk_rng := mk_rng s
|}.

Definition maker_visitor (ps : permissions) (idm : json -> option N) (m : mutator)
  (fuel : nat) (index : nat) : visitor_mut maker_state := {|
  vm_perm := may_visit ps;
  vm_visit := fun s n =>
    if (mk_skip s || may_mutate ps n)%bool then
      let? b := mu_mutable m n in
      if b then
        if Nat.eqb (mk_index s) index then
          match mu_mutate m fuel n (mk_rng s) with
          | Ok d => Ok (after_mutation idm s d, Some (md_node d))
          | Err e => Ok (with_error e s, Some n)
          | Panic msg => Panic msg
          | Diverge => Diverge
          end
        else Ok (bump_index s, None)
      else Ok (s, None)
    else Ok (s, None);
  vm_children := fun _ => true;
  vm_start := fun s n => if may_mutate_children ps n then with_skip true s else s;
  vm_end := fun s n => if may_mutate_children ps n then with_skip false s else s
|}.

(** The tree edit performed by [mutate_ast] before the comment is inserted
    (json_ast_language_interface.rs:147-164): the edited clone and the final
    state of the visitor, or the cached error. *)
Definition make_mutation (ps : permissions) (idm : json -> option N) (m : mutator)
  (fuel : nat) (index : nat) (ast : json) (r : rng) : res (json * maker_state) :=
  let? (ast', s, _) := traverse_mut (maker_visitor ps idm m fuel index) ast (maker_start r) in
  match mk_error s with
  | Some e => Err e
  | None => Ok (ast', s)
  end.
