(** * Reading and writing attributes of one object over time. *)
From Coq Require Import String Ascii List Bool Arith ZArith.
From Verif Require Import PyStr PyVal Jp Obj.
Import ListNotations.
Open Scope string_scope.

(** the mutable state of a [Base2Obj] that attributes touch: [self.spec], [self.internal] and plain
    instance attributes; its children are fixed here (see [Cache] for those)
    -- pyopenapi/migration/spec/obj.py:129-134,535-546 *)
Record inst := mk_inst
  { i_class : classdef; i_path : option string; i_spec : json; i_kids : list (string * obj);
    i_internal : list (string * json); i_extra : list (string * json) }.
Definition declared_child (cd : classdef) (name : string) : bool :=
  match find_child name (c_children cd), find_child name (c_lazy cd) with None, None => false | _, _ => true end.
Definition declared_field (cd : classdef) (name : string) : bool :=
  match find_field name cd with Some _ => true | None => false end.

Section State.
  Variable tbl : ctable.

  (** [getattr(o, name)]: properties first (children over internals and aliases over fields), then
      plain instance attributes -- pyopenapi/migration/spec/obj.py:24-34,46-49,68-69,88-116,520-522 *)
  Definition inst_plain (o : inst) (name : string) : res obj :=
    if declared_child (i_class o) name || declared_field (i_class o) name
    then getattr_plain tbl (i_class o) (i_path o) (i_spec o) (i_kids o) name
    else match lookup name (i_internal o) with
         | Some v => Ok (OPrim v)
         | None =>
             match lookup name (c_internal (i_class o)) with
             | Some dflt => Ok (OPrim dflt)
             | None => match lookup name (i_extra o) with Some v => Ok (OPrim v) | None => Err AttributeError end
             end
         end.
  Definition inst_get (o : inst) (name : string) : res obj :=
    if declared_child (i_class o) name then inst_plain o name
    else match lookup name (c_renames (i_class o)) with
         | Some key => inst_plain o key
         | None =>
             match lookup name (c_internal (i_class o)) with
             | Some dflt => Ok (OPrim (match lookup name (i_internal o) with Some v => v | None => dflt end))
             | None => inst_plain o name
             end
         end.

  (** [setattr(o, name, v)] with a JSON value: a child property refuses it, a read-only field has no
      setter (AttributeError), a writable field stores into [spec], an internal into [internal], any
      other name becomes a plain instance attribute
      -- pyopenapi/migration/spec/obj.py:36-39,51-54,71-75,118-124 *)
  Definition inst_put (o : inst) (name : string) (v : json) : res inst :=
    if declared_child (i_class o) name then Err PyException
    else match find_field name (i_class o) with
         | Some f =>
             if f_readonly f then Err AttributeError
             else match i_spec o with
                  | JDict d => Ok (mk_inst (i_class o) (i_path o) (JDict (dict_set (f_name f) v d)) (i_kids o) (i_internal o) (i_extra o))
                  | _ => Err TypeError
                  end
         | None => Ok (mk_inst (i_class o) (i_path o) (i_spec o) (i_kids o) (i_internal o) (dict_set name v (i_extra o)))
         end.
  Definition inst_set (o : inst) (name : string) (v : json) : res inst :=
    if declared_child (i_class o) name then Err PyException
    else match lookup name (c_renames (i_class o)) with
         | Some key => inst_put o key v
         | None =>
             match lookup name (c_internal (i_class o)) with
             | Some _ => Ok (mk_inst (i_class o) (i_path o) (i_spec o) (i_kids o) (dict_set name v (i_internal o)) (i_extra o))
             | None => inst_put o name v
             end
         end.

  (** a history of writes; a write that raises leaves the object as it was *)
  Definition write (o : inst) (w : string * json) : inst :=
    match inst_set o (fst w) (snd w) with Ok o' => o' | Err _ => o end.
  Definition writes (o : inst) (ws : list (string * json)) : inst := fold_left write ws o.
End State.
