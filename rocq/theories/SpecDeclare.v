(** * Specification vocabulary for class declarations: what a history of statements, read backwards
    (newest statement first), says about a class. *)
From Coq Require Import String List Bool.
From Verif Require Import PyStr PyVal Obj Declare.
Import ListNotations.
Open Scope string_scope.

Inductive kind := Fields | Children | Internals.
Definition table_of (k : kind) (c : cls) : list (string * desc) :=
  match k with Fields => k_fields c | Children => k_children c | Internals => k_internal c end.
(** in which table [attach_field] notes a descriptor *)
Definition noted_in (d : desc) : option kind := match d_factory d with Some FChild => Some Children | Some FInternal => Some Internals | _ => None end.
Definition same_kind (a b : kind) : bool := match a, b with Fields, Fields | Children, Children | Internals, Internals => true | _, _ => false end.
(** the descriptor of the name [n] in the table [k] of the class [c]: attached to the class, or
    declared by it, or what its base had when the class was declared *)
Fixpoint listed (h : list stmt) (k : kind) (c n : string) : option desc :=
  match h with
  | [] => None
  | Attach c' n' d :: older =>
      if String.eqb c' c && String.eqb n' n && match noted_in d with Some k' => same_kind k' k | None => false end then Some d else listed older k c n
  | Declare c' base f ch i :: older =>
      if String.eqb c' c then
        match lookup n (match k with Fields => f | Children => ch | Internals => i end), base with
        | Some d, _ => Some d
        | None, Some b => listed older k b n
        | None, None => None
        end
      else listed older k c n
  end.
(** what a descriptor of a table means: the factory it names, or that of the table, with its key or the name *)
Definition meant (k : kind) (n : string) (d : desc) (p : prop) : Prop :=
  make (match d_factory d with Some f => f | None => match k with Fields => FField | Children => FChild | Internals => FInternal end end) (key_or (d_key d) n) (d_args d) = Ok p.
(** the property [n] in the class [c] itself: attached last, or made when the class was declared, from
    its children, else its internals, else its fields, the inherited ones included *)
Fixpoint own (h : list stmt) (c n : string) (p : prop) : Prop :=
  match h with
  | [] => False
  | Attach c' n' d :: older => if String.eqb c' c && String.eqb n' n then meant Fields n d p else own older c n p
  | Declare c' _ _ _ _ :: older =>
      if String.eqb c' c then
        match listed h Children c n, listed h Internals c n, listed h Fields c n with
        | Some d, _, _ => meant Children n d p
        | None, Some d, _ => meant Internals n d p
        | None, None, Some d => meant Fields n d p
        | None, None, None => False
        end
      else own older c n p
  end.
Fixpoint based (h : list stmt) (c : string) : option string :=
  match h with
  | [] => None
  | Declare c' base _ _ _ :: older => if String.eqb c' c then base else based older c
  | Attach _ _ _ :: older => based older c
  end.
(** what [c().n] finds: the nearest class on the way from [c] to the root that has the property itself *)
Inductive sees (h : list stmt) : string -> string -> prop -> Prop :=
| sees_own c n p : own h c n p -> sees h c n p
| sees_base c n p b : (forall q, ~ own h c n q) -> based h c = Some b -> sees h b n p -> sees h c n p.

(** the names of a dict are distinct *)
Definition dict_names (s : stmt) : Prop :=
  match s with Declare _ _ f c i => NoDup (keys f) /\ NoDup (keys c) /\ NoDup (keys i) | Attach _ _ _ => True end.
(** what a class definition of the model says about a name: the property that is read *)
Definition described (cd : classdef) (n : string) (p : prop) : Prop :=
  match p with
  | PChild key b required default => key = n /\ default = JNull /\ exists b', b = Some b' /\ In (mk_child n b' required) (c_children cd ++ c_lazy cd)
  | PInternal key default => key = n /\ In (n, default) (c_internal cd)
  | PRename key => In (n, key) (c_renames cd)
  | PField key required default restricted readonly => key = n /\ In (mk_field n required default restricted readonly) (c_fields cd)
  end.
