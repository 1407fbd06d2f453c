(** * Attributes attached to objects while they are processed
    -- pyopenapi/migration/spec/attr.py:8-57 ([attr], [AttributeMeta], [_Attrs]),
       pyopenapi/migration/spec/obj.py:723-739 ([get_attrs]),
       pyopenapi/utils.py:151-172 (the readers [deref], [final]). *)
From Coq Require Import String List Bool Arith.
From Verif Require Import PyStr PyVal.
Import ListNotations.
Open Scope string_scope.

(** the values kept in attributes: None, a text ('normalized_ref', 'name'), an object ('ref_obj', 'final_obj') *)
Inductive value := VNone | VText (s : string) | VObject (o : nat).
(** a descriptor of [__attributes__]: [dict(key=.., required=.., default=..)].  Simplification: another
    [builder] than [attr], which no class of the repository names, is left out. *)
Record adesc := mk_adesc { ad_key : option string; ad_required : option bool; ad_default : option value }.
(** the property [attr(key, required, default)] -- attr.py:8 *)
Record aprop := mk_aprop { ap_key : string; ap_required : bool; ap_default : value }.
(** a group class: its base and the properties in its own namespace *)
Definition gclasses := list (string * (option string * list (string * aprop))).
Definition or_else {A} (o : option A) (x : A) : A := match o with Some y => y | None => x end.
(** [class name(base): __attributes__ = ...] -- attr.py:37-45: the tables of the base are not copied *)
Definition declare_group (env : gclasses) (name : string) (base : option string) (attributes : list (string * adesc)) : gclasses :=
  (name, (base, map (fun e => (fst e,
     mk_aprop (match ad_key (snd e) with Some k => if truthy_str k then k else fst e | None => fst e end)
              (or_else (ad_required (snd e)) false) (or_else (ad_default (snd e)) VNone))) attributes)) :: env.
(** the property [class.name]: in the namespace of the class, else of its base (Python's attribute
    lookup); a base is further back in the list.  Simplification: the names of methods and of the
    instance attribute [attrs] are no attributes. *)
Fixpoint group_attr (env : gclasses) (class name : string) : option aprop :=
  match env with
  | [] => None
  | (c, (base, own)) :: env' =>
      if String.eqb c class then
        match lookup name own with
        | Some p => Some p
        | None => match base with Some b => group_attr env' b name | None => None end
        end
      else group_attr env' class name
  end.

(** an instance: its class, the dict [self.attrs], and the rest of its [__dict__] *)
Record group := mk_group { g_class : string; g_attrs : list (string * value); g_dict : list (string * value) }.
(** all groups made so far (a group is the number of its creation), and the dict [attrs] of every object:
    the number of the group under (object, namespace) *)
Record attrs_state := mk_state { a_groups : list group; a_of : list (nat * string * nat) }.
Definition no_attrs : attrs_state := mk_state [] [].

Fixpoint group_of (l : list (nat * string * nat)) (o : nat) (ns : string) : option nat :=
  match l with
  | [] => None
  | (o', ns', g) :: l' => if Nat.eqb o' o && String.eqb ns' ns then Some g else group_of l' o ns
  end.
Fixpoint update_nth {A} (n : nat) (x : A) (l : list A) : list A :=
  match l, n with
  | [], _ => []
  | _ :: l', O => x :: l'
  | y :: l', S n' => y :: update_nth n' x l'
  end.

(** [o.get_attrs(ns, group_cls)] -- obj.py:723-739 *)
Definition get_attrs (s : attrs_state) (o : nat) (ns : string) (group_cls : option string) : attrs_state * option nat :=
  match group_of (a_of s) o ns with
  | Some g => (s, Some g)
  | None =>
      match group_cls with
      | None => (s, None)
      | Some c =>
          let g := List.length (a_groups s) in
          (mk_state (a_groups s ++ [mk_group c [] []]) ((o, ns, g) :: a_of s), Some g)
      end
  end.
(** [g.name]: the getter of the property -- attr.py:18-24 -- or the attribute of the instance *)
Definition read_attr (env : gclasses) (s : attrs_state) (g : nat) (name : string) : res value :=
  match nth_error (a_groups s) g with
  | None => Err PyException
  | Some i =>
      match group_attr env (g_class i) name with
      | Some p =>
          match lookup (ap_key p) (g_attrs i) with
          | Some v => Ok v
          | None => if ap_required p then Err PyException else Ok (ap_default p)
          end
      | None => match lookup name (g_dict i) with Some v => Ok v | None => Err AttributeError end
      end
  end.
(** [g.name = v]: the setter of the property -- attr.py:26-27 -- or an attribute of the instance *)
Definition write_attr (env : gclasses) (s : attrs_state) (g : nat) (name : string) (v : value) : attrs_state * res unit :=
  match nth_error (a_groups s) g with
  | None => (s, Err PyException)
  | Some i =>
      (mk_state (update_nth g
         (match group_attr env (g_class i) name with
          | Some p => mk_group (g_class i) (dict_set (ap_key p) v (g_attrs i)) (g_dict i)
          | None => mk_group (g_class i) (g_attrs i) (dict_set name v (g_dict i))
          end) (a_groups s)) (a_of s), Ok tt)
  end.

(** what a program does with attributes *)
Inductive op :=
| Ask (o : nat) (ns : string) (group_cls : option string)
| Read (g : nat) (name : string)
| Write (g : nat) (name : string) (v : value).
Definition do (env : gclasses) (s : attrs_state) (x : op) : attrs_state :=
  match x with
  | Ask o ns c => fst (get_attrs s o ns c)
  | Read _ _ => s
  | Write g n v => fst (write_attr env s g n v)
  end.
Definition after (env : gclasses) (h : list op) : attrs_state := fold_left (do env) h no_attrs.

(** [final(obj)] of an object whose [ref] is truthy or not -- utils.py:169-172 *)
Definition final_of (env : gclasses) (s : attrs_state) (has_ref : bool) (o : nat) : res value :=
  if has_ref then
    match snd (get_attrs s o "migration" None) with
    | None => Err AttributeError
    | Some g => v <- read_attr env s g "final_obj" ;; Ok (match v with VNone => VObject o | VText t => if truthy_str t then v else VObject o | _ => v end)
    end
  else Ok (VObject o).

(** the groups of pyopenapi/migration/versions/v2_0/attrs.py:7-26 *)
Definition optional_attr : adesc := mk_adesc None None None.
Definition groups_v20 : gclasses :=
  declare_group (declare_group (declare_group [] "ReferenceAttributeGroup" None [("ref_obj", optional_attr); ("normalized_ref", optional_attr)])
    "SchemaAttributeGroup" None [("ref_obj", optional_attr); ("final", optional_attr); ("name", optional_attr); ("normalized_ref", optional_attr)])
    "PathItemAttributeGroup" None [("ref_obj", optional_attr); ("normalized_ref", optional_attr)].
(** the groups of pyopenapi/migration/versions/v3_0_0/attrs.py:7-19 *)
Definition groups_v30 : gclasses :=
  declare_group (declare_group [] "ReferenceAttributeGroup" None [("ref_obj", optional_attr); ("normalized_ref", optional_attr)])
    "PathItemAttributeGroup" None [("normalized_ref", optional_attr); ("ref_obj", optional_attr); ("final_obj", optional_attr)].
