(** * How classes come to be: declarations and attached fields
    -- pyopenapi/migration/spec/obj.py:14-126 (the property factories), 490-524 (the metaclass
       [FieldMeta]), 679-689 ([attach_field]). *)
From Coq Require Import String List Bool.
From Verif Require Import PyStr PyVal Obj.
Import ListNotations.
Open Scope string_scope.

(** the property factories [field], [child], [internal], [rename] -- obj.py:14,42,57,78 *)
Inductive factory := FField | FChild | FInternal | FRename.
(** the keyword arguments of a descriptor but for [builder] and [key]; [None]: not given *)
Record args := mk_args
  { a_required : option bool; a_default : option json; a_restricted : option bool; a_readonly : option bool; a_child_builder : option builder }.
(** a descriptor: the dict that stands for a name in [__fields__], [__children__], [__internal__], or
    the keyword arguments of [attach_field] *)
Record desc := mk_desc { d_factory : option factory; d_key : option string; d_args : args }.
(** a property: the factory it was made by with the values of its arguments.  [default=None] is [JNull] *)
Inductive prop :=
| PField (key : string) (required : bool) (default : json) (restricted readonly : bool)
| PChild (key : string) (b : option builder) (required : bool) (default : json)
| PInternal (key : string) (default : json)
| PRename (key : string).

Definition given {A} (o : option A) (x : A) : A := match o with Some y => y | None => x end.
Definition absent {A} (o : option A) : bool := match o with Some _ => false | None => true end.
(** [builder(key, **args)]: an argument the factory does not have raises TypeError
    -- obj.py:14 (field), 78 (child), 42 (internal), 57 (rename) *)
Definition make (f : factory) (key : string) (a : args) : res prop :=
  match f with
  | FField =>
      if absent (a_child_builder a) then Ok (PField key (given (a_required a) false) (given (a_default a) JNull) (given (a_restricted a) false) (given (a_readonly a) true))
      else Err TypeError
  | FChild =>
      if absent (a_restricted a) && absent (a_readonly a) then Ok (PChild key (a_child_builder a) (given (a_required a) false) (given (a_default a) JNull))
      else Err TypeError
  | FInternal =>
      if absent (a_required a) && absent (a_restricted a) && absent (a_readonly a) && absent (a_child_builder a) then Ok (PInternal key (given (a_default a) JNull))
      else Err TypeError
  | FRename =>
      if absent (a_required a) && absent (a_default a) && absent (a_restricted a) && absent (a_readonly a) && absent (a_child_builder a) then Ok (PRename key)
      else Err TypeError
  end.
(** [key or name] -- obj.py:516,686 *)
Definition key_or (o : option string) (name : string) : string :=
  match o with Some k => if truthy_str k then k else name | None => name end.

(** a class: its base, its own [__fields__], [__children__], [__internal__], and the properties in its
    own namespace.  Simplification: one base (as every class of the repository has), methods and other
    attributes are left out; a name is declared only once. *)
Record cls := mk_cls
  { k_base : option string; k_fields : list (string * desc); k_children : list (string * desc); k_internal : list (string * desc); k_attrs : list (string * prop) }.
Definition classes := list (string * cls).

(** [_from_parent_]: the entries of the parent whose names are missing -- obj.py:501-507.  (They are
    added in the order of a set, which is unspecified; here in the order of the parent.) *)
Definition from_parent (own parent : list (string * desc)) : list (string * desc) :=
  (own ++ filter (fun e => negb (mem (fst e) own)) parent)%list.
(** [_update_to_spc] -- obj.py:514-518 *)
Definition update_to (default_factory : factory) (spec : list (string * desc)) (spc : list (string * prop)) : res (list (string * prop)) :=
  foldM (fun spc e => p <- make (given (d_factory (snd e)) default_factory) (key_or (d_key (snd e)) (fst e)) (d_args (snd e)) ;; Ok (dict_set (fst e) p spc)) spec spc.

Inductive stmt :=
| Declare (name : string) (base : option string) (fields children internals : list (string * desc))
| Attach (class name : string) (d : desc).

(** [class name(base): ...] -- obj.py:494-524; an unknown base is a NameError (here PyException) *)
Definition declare (env : classes) (name : string) (base : option string) (f c i : list (string * desc)) : res classes :=
  if mem name env then Err PyException else
  parent <- match base with
            | None => Ok (mk_cls None [] [] [] [])
            | Some b => match lookup b env with Some k => Ok k | None => Err PyException end
            end ;;
  let fields := from_parent f (k_fields parent) in
  let children := from_parent c (k_children parent) in
  let internals := from_parent i (k_internal parent) in
  spc <- update_to FField fields [] ;;
  spc <- update_to FInternal internals spc ;;
  spc <- update_to FChild children spc ;;
  Ok ((name, mk_cls base fields children internals spc) :: env).
(** [cls.attach_field(name, **d)] -- obj.py:679-689 *)
Definition attach (env : classes) (class name : string) (d : desc) : res classes :=
  match lookup class env with
  | None => Err PyException
  | Some k =>
      match d_factory d with
      | None => Err KeyError
      | Some f =>
          p <- make f (key_or (d_key d) name) (d_args d) ;;
          Ok (dict_set class
                (mk_cls (k_base k) (k_fields k)
                   (match f with FChild => dict_set name d (k_children k) | _ => k_children k end)
                   (match f with FInternal => dict_set name d (k_internal k) | _ => k_internal k end)
                   (dict_set name p (k_attrs k))) env)
      end
  end.
(** the statements of a module, one after the other *)
Definition exec (env : classes) (s : stmt) : res classes :=
  match s with
  | Declare name base f c i => declare env name base f c i
  | Attach class name d => attach env class name d
  end.
Definition module (h : list stmt) : res classes := foldM exec h [].

(** the property [type(o).name]: in the namespace of the class, else of its base, and so on (Python's
    attribute lookup).  A base is always further back in the list. *)
Fixpoint class_attr (env : classes) (class name : string) : option prop :=
  match env with
  | [] => None
  | (c, k) :: env' =>
      if String.eqb c class then
        match lookup name (k_attrs k) with
        | Some p => Some p
        | None => match k_base k with Some b => class_attr env' b name | None => None end
        end
      else class_attr env' class name
  end.
(** [get_field_names] -- obj.py:691-696 *)
Definition field_names (k : cls) : list string := nodup string_dec (keys (k_fields k) ++ keys (k_children k)).
