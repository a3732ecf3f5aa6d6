(** JSON values and the JSON access layer (mutagenyx_lib/src/json.rs), on top
    of the parts of serde_json the crate relies on.  serde_json is built
    without [preserve_order] (Cargo.toml), so a JSON object is a [BTreeMap]:
    we model it as an association list whose keys are strictly increasing. *)
From Coq Require Import String Ascii List NArith ZArith Bool.
From Verif Require Import Base.
Import ListNotations.
Open Scope string_scope.
Open Scope list_scope.

(** serde_json [Number]: [PosInt u64], [NegInt i64] (negative), [Float f64].
    A finite [f64] is kept as the pair [(m, e)] denoting [m * 2^e]. *)
Inductive jnum : Type :=
| NumU (n : N)
| NumI (z : Z)
| NumF (m e : Z).

(** serde_json [Value]. *)
Inductive json : Type :=
| JNull
| JBool (b : bool)
| JNum (x : jnum)
| JStr (s : string)
| JArr (l : list json)
| JObj (o : list (string * json)).

(** Induction over the nested lists. *)
Section Induction.
  Variable P : json -> Prop.
  Hypothesis Hnull : P JNull.
  Hypothesis Hbool : forall b, P (JBool b).
  Hypothesis Hnum : forall x, P (JNum x).
  Hypothesis Hstr : forall s, P (JStr s).
  Hypothesis Harr : forall l, Forall P l -> P (JArr l).
  Hypothesis Hobj : forall o, Forall (fun kv => P (snd kv)) o -> P (JObj o).

  Fixpoint json_ind' (j : json) : P j :=
    match j with
    | JNull => Hnull
    | JBool b => Hbool b
    | JNum x => Hnum x
    | JStr s => Hstr s
    | JArr l =>
        Harr l ((fix go (l : list json) : Forall P l :=
                   match l with
                   | [] => Forall_nil _
                   | x :: l => Forall_cons _ (json_ind' x) (go l)
                   end) l)
    | JObj o =>
        Hobj o ((fix go (o : list (string * json)) : Forall (fun kv => P (snd kv)) o :=
                   match o with
                   | [] => Forall_nil _
                   | kv :: o => Forall_cons _ (json_ind' (snd kv)) (go o)
                   end) o)
    end.
End Induction.

(** ** Maps *)

(** Byte-wise lexicographic order of keys ([Ord for String]). *)
Fixpoint str_ltb (s t : string) : bool :=
  match s, t with
  | _, EmptyString => false
  | EmptyString, String _ _ => true
  | String a s, String b t =>
      if N.ltb (N_of_ascii a) (N_of_ascii b) then true
      else if N.eqb (N_of_ascii a) (N_of_ascii b) then str_ltb s t
      else false
  end.

(** [BTreeMap::get]. *)
Fixpoint assoc {A} (k : string) (o : list (string * A)) : option A :=
  match o with
  | [] => None
  | (k', v) :: o => if k =?s k' then Some v else assoc k o
  end.

(** Overwrite the value of a key that is present ([*v = node]). *)
Fixpoint obj_set {A} (k : string) (v : A) (o : list (string * A)) : list (string * A) :=
  match o with
  | [] => []
  | (k', v') :: o => if k =?s k' then (k', v) :: o else (k', v') :: obj_set k v o
  end.

(** [BTreeMap::insert]. *)
Fixpoint obj_insert {A} (k : string) (v : A) (o : list (string * A)) : list (string * A) :=
  match o with
  | [] => [(k, v)]
  | (k', v') :: o' =>
      if k =?s k' then (k', v) :: o'
      else if str_ltb k k' then (k, v) :: o
      else (k', v') :: obj_insert k v o'
  end.

(** Object built by parsing a JSON text or by a [json!] literal. *)
Definition mkobj (l : list (string * json)) : json :=
  JObj (fold_left (fun o kv => obj_insert (fst kv) (snd kv) o) l []).

(** Representation invariant: what serde_json can hold.  Keys strictly
    increasing, [u64]/[i64] payloads in range. *)
Definition keys_above (k : string) {A} (o : list (string * A)) : Prop :=
  Forall (fun kv => str_ltb k (fst kv) = true) o.

Definition wf_num (x : jnum) : Prop :=
  match x with
  | NumU n => (n < 18446744073709551616)%N
  | NumI z => (-9223372036854775808 <= z < 0)%Z
  | NumF _ _ => True
  end.

Fixpoint wf (j : json) : Prop :=
  match j with
  | JNum x => wf_num x
  | JArr l => (fix go l := match l with [] => True | x :: l => wf x /\ go l end) l
  | JObj o =>
      (fix go o := match o with
                   | [] => True
                   | (k, v) :: o => keys_above k o /\ wf v /\ go o
                   end) o
  | _ => True
  end.

(** ** serde_json accessors *)

(** [Value::get(&str)]. *)
Definition oget (j : json) (k : string) : option json :=
  match j with JObj o => assoc k o | _ => None end.

(** [Value::as_str], [as_bool], [as_array], [as_object], [is_null], ... *)
Definition as_str (j : json) : option string := match j with JStr s => Some s | _ => None end.
Definition as_bool (j : json) : option bool := match j with JBool b => Some b | _ => None end.
Definition as_array (j : json) : option (list json) := match j with JArr l => Some l | _ => None end.
Definition as_object (j : json) : option (list (string * json)) :=
  match j with JObj o => Some o | _ => None end.
Definition is_null (j : json) : bool := match j with JNull => true | _ => false end.
Definition is_object (j : json) : bool := match j with JObj _ => true | _ => false end.
Definition is_array (j : json) : bool := match j with JArr _ => true | _ => false end.

(** [Value::as_i64]: [PosInt] only when it fits. *)
Definition as_i64 (j : json) : option Z :=
  match j with
  | JNum (NumU n) => if (n <? 9223372036854775808)%N then Some (Z.of_N n) else None
  | JNum (NumI z) => Some z
  | _ => None
  end.

(** [Value::as_u64]. *)
Definition as_u64 (j : json) : option N :=
  match j with
  | JNum (NumU n) => Some n
  | _ => None
  end.

(** [n as f64] for an integer: round to nearest, ties to even, 53 bits of
    mantissa; result as [(m, e)] meaning [m * 2^e]. *)
Definition round_f64 (z : Z) : Z * Z :=
  let a := Z.abs z in
  let bits := (Z.log2 a + 1)%Z in
  if (bits <=? 53)%Z then (z, 0%Z)
  else
    let e := (bits - 53)%Z in
    let q := (a / 2 ^ e)%Z in
    let r := (a mod 2 ^ e)%Z in
    let half := (2 ^ (e - 1))%Z in
    let q' := if (r <? half)%Z then q
              else if (half <? r)%Z then (q + 1)%Z
              else if Z.even q then q else (q + 1)%Z in
    ((Z.sgn z * q')%Z, e).

(** [Value::as_f64]. *)
Definition as_f64 (j : json) : option (Z * Z) :=
  match j with
  | JNum (NumU n) => Some (round_f64 (Z.of_N n))
  | JNum (NumI z) => Some (round_f64 z)
  | JNum (NumF m e) => Some (m, e)
  | _ => None
  end.

(** [json![i64]] and [json![u64]]. *)
Definition jint (z : Z) : json :=
  if (z <? 0)%Z then JNum (NumI z) else JNum (NumU (Z.to_N z)).
Definition juint (n : N) : json := JNum (NumU n).

(** ** JSON pointers (serde_json [Value::pointer] / [pointer_mut]) *)

(** Reference tokens of the pointer ["/" ++ key]: split at ['/'], then
    unescape "~1" and "~0". *)
Definition ptr_tokens (key : string) : list string :=
  map (fun t => replace2 "~" "0" "~" (replace2 "~" "1" "/" t)) (split_on "/" key).

(** serde_json [parse_index]: array index tokens. *)
Definition parse_index (t : string) : option nat :=
  match t with
  | String "+" _ => None
  | String "0" (String _ _) => None
  | _ => option_map N.to_nat (parse_unsigned 64 t)
  end.

Fixpoint ptr_get (toks : list string) (j : json) : option json :=
  match toks with
  | [] => Some j
  | t :: ts =>
      match j with
      | JObj o => match assoc t o with Some v => ptr_get ts v | None => None end
      | JArr l =>
          match parse_index t with
          | Some i => match nth_error l i with Some v => ptr_get ts v | None => None end
          | None => None
          end
      | _ => None
      end
  end.

(** [pointer_mut] followed by an in-place update; [None] when the pointer does
    not resolve. *)
Fixpoint ptr_upd (toks : list string) (f : json -> json) (j : json) : option json :=
  match toks with
  | [] => Some (f j)
  | t :: ts =>
      match j with
      | JObj o =>
          match assoc t o with
          | Some v => option_map (fun v' => JObj (obj_set t v' o)) (ptr_upd ts f v)
          | None => None
          end
      | JArr l =>
          match parse_index t with
          | Some i =>
              match nth_error l i with
              | Some v => option_map (fun v' => JArr (replace_at i v' l)) (ptr_upd ts f v)
              | None => None
              end
          | None => None
          end
      | _ => None
      end
  end.

(** ** [JSONMutate for Value] (json.rs:92-432) *)

(** [self.pointer(&json_path(key))], json.rs:51-55; also [has_value_for_key]
    (json.rs:109-112). *)
Definition kget (j : json) (k : string) : option json := ptr_get (ptr_tokens k) j.

(** [get_str_for_key] (json.rs:271-277), [get_bool_for_key] (311-317),
    [get_int_for_key] (328-334), [get_float_for_key] (345-351),
    [get_array_for_key] (199-205), [get_map_for_key] (235-241). *)
Definition get_str (j : json) (k : string) : option string :=
  match kget j k with Some v => as_str v | None => None end.
Definition get_bool (j : json) (k : string) : option bool :=
  match kget j k with Some v => as_bool v | None => None end.
Definition get_int (j : json) (k : string) : option Z :=
  match kget j k with Some v => as_i64 v | None => None end.
Definition get_float (j : json) (k : string) : option (Z * Z) :=
  match kget j k with Some v => as_f64 v | None => None end.
Definition get_array (j : json) (k : string) : option (list json) :=
  match kget j k with Some v => as_array v | None => None end.
Definition get_map (j : json) (k : string) : option (list (string * json)) :=
  match kget j k with Some v => as_object v | None => None end.

(** [contains_key] (json.rs:359-366). *)
Definition contains_key (j : json) (k : string) : bool :=
  match oget j k with Some _ => true | None => false end.

(** [take_value_for_key] (json.rs:125-128): the value, and the node with
    [null] left in its place. *)
Definition take_key (j : json) (k : string) : option (json * json) :=
  match kget j k, ptr_upd (ptr_tokens k) (fun _ => JNull) j with
  | Some v, Some j' => Some (v, j')
  | _, _ => None
  end.

(** [set_node_for_key] (json.rs:141-152). *)
Definition set_key (j : json) (k : string) (v : json) : json :=
  match ptr_upd (ptr_tokens k) (fun _ => v) j with
  | Some j' => j'
  | None => match j with
            | JObj o => JObj (obj_insert k v o)
            | _ => j
            end
  end.

(** [set_str_for_key] (json.rs:289-300). *)
Definition set_str (j : json) (k : string) (s : string) : json := set_key j k (JStr s).

(** [set_node_for_key_at_index] (json.rs:166-173). *)
Definition set_key_at (j : json) (k : string) (i : nat) (v : json) : json :=
  match ptr_upd (ptr_tokens k)
          (fun a => match a with JArr l => JArr (replace_at i v l) | _ => a end) j with
  | Some j' => j'
  | None => j
  end.

(** In-place update of the array stored under a key ([get_array_for_key_mut],
    json.rs:217-223, followed by a mutation of the vector). *)
Definition upd_array (j : json) (k : string) (f : list json -> list json) : json :=
  match ptr_upd (ptr_tokens k)
          (fun a => match a with JArr l => JArr (f l) | _ => a end) j with
  | Some j' => j'
  | None => j
  end.

(** [get_node_with_id] (json.rs:374-398): first node in pre-order whose id is
    [id].  [idm] is the id maker. *)
Fixpoint find_id (idm : json -> option N) (id : N) (j : json) : option json :=
  let below :=
    match j with
    | JArr l =>
        (fix go l := match l with
                     | [] => None
                     | x :: l => match find_id idm id x with
                                 | Some n => Some n
                                 | None => go l
                                 end
                     end) l
    | JObj o =>
        (fix go o := match o with
                     | [] => None
                     | (_, x) :: o => match find_id idm id x with
                                      | Some n => Some n
                                      | None => go o
                                      end
                     end) o
    | _ => None
    end in
  match idm j with
  | Some i => if N.eqb i id then Some j else below
  | None => below
  end.

(** [get_node_with_id_mut] (json.rs:407-431) followed by an in-place update of
    the node it returns. *)
Fixpoint upd_id (idm : json -> option N) (id : N) (f : json -> json) (j : json) : option json :=
  let below :=
    match j with
    | JArr l =>
        option_map JArr
          ((fix go l := match l with
                        | [] => None
                        | x :: l => match upd_id idm id f x with
                                    | Some x' => Some (x' :: l)
                                    | None => option_map (cons x) (go l)
                                    end
                        end) l)
    | JObj o =>
        option_map JObj
          ((fix go o := match o with
                        | [] => None
                        | (k, x) :: o => match upd_id idm id f x with
                                         | Some x' => Some ((k, x') :: o)
                                         | None => option_map (cons (k, x)) (go o)
                                         end
                        end) o)
    | _ => None
    end in
  match idm j with
  | Some i => if N.eqb i id then Some (f j) else below
  | None => below
  end.

(** Depth of a value (used as recursion bound by the printers). *)
Fixpoint jdepth (j : json) : nat :=
  match j with
  | JArr l => S ((fix go l := match l with [] => O | x :: l => Nat.max (jdepth x) (go l) end) l)
  | JObj o => S ((fix go o := match o with [] => O | (_, x) :: o => Nat.max (jdepth x) (go o) end) o)
  | _ => O
  end.

(** [SimpleAST::get_children] for JSON (json_ast.rs:15-53): object values in
    key order, array elements, nothing for scalars. *)
Definition children (j : json) : list json :=
  match j with
  | JArr l => l
  | JObj o => map snd o
  | _ => []
  end.
