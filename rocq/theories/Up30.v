(** * Model of pyopenapi/migration/versions/v3_0_0/main.py: the conversion step of [upgrade].

    The scanners which run after the conversion (NormalizeRef, Resolve, Merge, lines 48-63) are in Main.v. *)
From Coq Require Import String List Bool Arith.
From Verif Require Import PyStr PyVal Obj Classes_v2_0 Classes_v3_0_0 Store Conv20.
Import ListNotations.
Open Scope string_scope. Open Scope nat_scope.

(** The raw dict handed to [objects.OpenApi]: "security", if present, holds a [_List] object, not a list.  The only
    operation applied to it is [isinstance(spec, list)] (obj.py:210-214), which is false, as it is for a string. *)
Definition not_a_list : json := JStr "".
Definition with_security (d : dict) (sec : option obj) : dict := match sec with Some _ => dict_set "security" not_a_list d | None => d end.

(** [upgrade(obj, app, jref)] for an object of version 2.0 -- main.py:17-46; [url], [jp]: the parts of [jref];
    [ovr]: the [override] of lines 22-26, which a PathItem does not get *)
Definition upgrade30_over (deref : obj -> res obj) (normalized_ref : obj -> res json) (o : obj) (url jp : string) (ovr : override) : res (obj * routes) :=
  let build c d := construct v30_table (JDict d) (BCls c) (Some jp) ovr in
  match o with
  | OObj "Swagger" _ _ _ =>
      x <- to_openapi deref normalized_ref o ;;
      let '(d, sec, reloc) := x in
      r <- build "OpenApi" (with_security d sec) ;; Ok (r, reloc)
  | OObj "License" _ _ _ => d <- to_license o ;; r <- build "License" d ;; Ok (r, [])
  | OObj "Info" _ _ _ => d <- to_info o ;; r <- build "Info" d ;; Ok (r, [])
  | OObj "Schema" _ _ _ => d <- to_schema false o ;; r <- build "Schema" d ;; Ok (r, [])
  | OObj "PathItem" _ _ _ => x <- to_path_item deref normalized_ref o url [] [] ;; r <- construct v30_table (JDict (fst x)) (BCls "PathItem") (Some jp) [] ;; Ok (r, snd x)
  | _ => Err PyException
  end.
(** when no object of 3.0.0 is stored below [jp] *)
Definition upgrade30 (deref : obj -> res obj) (normalized_ref : obj -> res json) (o : obj) (url jp : string) : res (obj * routes) :=
  upgrade30_over deref normalized_ref o url jp [].

(** [getattr(o, name)] of an object of the given version *)
Definition attr (tbl : ctable) (o : obj) (name : string) : res obj :=
  match o with
  | OObj c p s kids => match lookup c tbl with None => Err KeyError | Some cd => getattr_ tbl cd p s kids name end
  | _ => Err AttributeError
  end.
