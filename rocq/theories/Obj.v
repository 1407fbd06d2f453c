(** * The object system of pyopenapi/migration/spec/obj.py. *)
From Coq Require Import String Ascii List Bool Arith ZArith QArith.
From Verif Require Import PyStr PyVal Jp.
Import ListNotations.
Close Scope Q_scope. Open Scope string_scope. Open Scope nat_scope.

(** ** Declarations of classes *)

(** what a child slot is built with: a class, [list_(b)], [map_(b)], [is_str],
    [if_not_ref_else(b)] (with the [Reference] class of that version), [if_not_bool_else(b)]
    -- pyopenapi/migration/spec/obj.py:184-196,329-342,
       pyopenapi/migration/versions/v3_0_0/objects.py:22-48, v2_0/objects.py:9-35 *)
Inductive builder :=
| BCls (c : string)
| BListOf (b : builder)
| BMapOf (b : builder)
| BStr
| BRefElse (ref_class : string) (b : builder)
| BBoolElse (b : builder).

(** arguments of [field]; the key in the document is the name of the field for every class of the
    repository; [f_default = JNull] is [default=None] -- pyopenapi/migration/spec/obj.py:14 *)
Record fielddef := mk_field
  { f_name : string; f_required : bool; f_default : json; f_restricted : bool; f_readonly : bool }.
(** [dict()] -- a field with all defaults *)
Definition fld (name : string) : fielddef := mk_field name false JNull false true.
(** arguments of [child]; no class of the repository uses [default] or [key]
    -- pyopenapi/migration/spec/obj.py:78 *)
Record childdef := mk_child { ch_name : string; ch_builder : builder; ch_required : bool }.
(** a class: [__fields__], [__children__], children inherited only as properties (attached to the
    base class after the subclass was created, so missing in its [__children__]), renamed aliases and
    plain internals of [__internal__] -- pyopenapi/migration/spec/obj.py:490-524,679-689 *)
Record classdef := mk_class
  { c_fields : list fielddef; c_children : list childdef; c_lazy : list childdef;
    c_renames : list (string * string); c_internal : list (string * json) }.
Definition ctable := list (string * classdef).

(** ** Python operations on the raw document *)

(** [k in spec]: key of a dict, substring of a string, element of a list; TypeError otherwise *)
Fixpoint substring_of (k s : string) : bool :=
  startswith k s || match s with EmptyString => false | String _ r => substring_of k r end.
Definition json_is_str (k : string) (j : json) : bool :=
  match j with JStr s => String.eqb k s | _ => false end.
Definition py_in (k : string) (spec : json) : res bool :=
  match spec with
  | JDict d => Ok (mem k d)
  | JStr s => Ok (substring_of k s)
  | JList l => Ok (existsb (json_is_str k) l)
  | _ => Err TypeError
  end.
(** [spec[k]] with a string [k] *)
Definition py_getitem (k : string) (spec : json) : res json :=
  match spec with
  | JDict d => match lookup k d with Some v => Ok v | None => Err KeyError end
  | _ => Err TypeError
  end.

(** ** Objects *)

(** A constructed value.  [OPrim] is a bare JSON value (a string of [is_str], a bool of
    [if_not_bool_else], a field value, [None]); [OObj] a [Base2Obj] of class [c] with its raw [spec]
    and its [children]; [OList], [OMap] a [_List], [_Map] with their elements.  Parents and attributes
    are not modelled here.  The type of a container is its element builder (Python makes a new class
    at every [list_]/[map_] call). -- pyopenapi/migration/spec/obj.py:129-138,199-235,345-382,535-552 *)
Inductive obj :=
| OPrim (j : json)
| OObj (c : string) (path : option string) (spec : json) (kids : list (string * obj))
| OList (b : builder) (path : option string) (elems : list obj)
| OMap (b : builder) (path : option string) (elems : list (string * obj)).

(** [get_path()] -- pyopenapi/migration/spec/obj.py:180-181 *)
Definition get_path (o : obj) : option string :=
  match o with OPrim _ => None | OObj _ p _ _ => p | OList _ p _ => p | OMap _ p _ => p end.

(** [if o:]; [_List] and [_Map] have [__len__] (obj.py:312,486), [Base2Obj] has not *)
Definition truthy_obj (o : obj) : bool :=
  match o with
  | OPrim j => truthy j
  | OObj _ _ _ _ => true
  | OList _ _ l => match l with [] => false | _ => true end
  | OMap _ _ l => match l with [] => false | _ => true end
  end.

(** [jp_compose(key, base=path)] -- pyopenapi/migration/spec/obj.py:113,223,367 *)
Definition sub_path (path : option string) (key : string) : option string := Some (jp_join [key] path).

(** ** Construction *)

(** the [override] argument: JSON pointer -> object *)
Definition override := list (string * obj).

(** [self.override.setdefault(tokens[0], {}).update({rest: val})]
    -- pyopenapi/migration/spec/obj.py:144-147 *)
Definition ovr_insert (first rest : string) (v : obj) (m : list (string * override)) : list (string * override) :=
  dict_set first (dict_set rest v (match lookup first m with Some o => o | None => [] end)) m.
(** the set-up loop of [_Base.__init__] -- pyopenapi/migration/spec/obj.py:141-151 *)
Definition split_override (ovr : override) : res (list (string * override)) :=
  foldM (fun m kv =>
           match jp_split_max (Some (fst kv)) (Some 1) with
           | [] => Err PyException
           | [t] => Ok (ovr_insert t "" (snd kv) m)
           | t :: t' :: _ => Ok (ovr_insert t t' (snd kv) m)
           end) ovr [].
(** [self.override.get(key, {})] -- obj.py:93,220,364 *)
Definition ovr_get (key : string) (m : list (string * override)) : override :=
  match lookup key m with Some o => o | None => [] end.
(** the overriding object of this slot, if truthy -- obj.py:94-95,221-222,365-366 *)
Definition ovr_here (o : override) : option obj :=
  match lookup "" o with Some v => if truthy_obj v then Some v else None | None => None end.

(** resolution of a builder on a document before construction proper:
    [if_not_ref_else], [if_not_bool_else] -- v3_0_0/objects.py:22-39, v2_0/objects.py:18-35 *)
Inductive core := KPrim (j : json) | KCls (c : string) | KList (b : builder) | KMap (b : builder) | KStr.
Fixpoint select (b : builder) (j : json) : res core :=
  match b with
  | BCls c => Ok (KCls c)
  | BListOf b' => Ok (KList b')
  | BMapOf b' => Ok (KMap b')
  | BStr => Ok KStr
  | BRefElse r b' => i <- py_in "$ref" j ;; if (i : bool) then Ok (KCls r) else select b' j
  | BBoolElse b' => match j with JBool _ => Ok (KPrim j) | _ => select b' j end
  end.

(** a child slot of an object whose document is not a dict: the key is tested with [in], and
    indexing with a string raises TypeError -- obj.py:101-106 *)
Definition absent_child (spec : json) (c : childdef) : res unit :=
  i <- py_in (ch_name c) spec ;;
  if (i : bool) then (v <- py_getitem (ch_name c) spec ;; Ok tt)
  else if ch_required c then Err FieldNotExist else Ok tt.

Section Construct.
  Variable tbl : ctable.

  (** construction of the value described by builder [b] from the document [j]:
      [_List.__init__] (obj.py:207-235), [_Map.__init__] (obj.py:353-382), [Base2Obj.__init__]
      with the child getters (obj.py:535-552,88-116), [is_str] (v3_0_0/objects.py:42-48).
      The children of a class are built in the order of the table (Python: dict order). *)
  Fixpoint construct (j : json) (b : builder) (path : option string) (ovr : override) {struct j} : res obj :=
    k <- select b j ;;
    match k with
    | KPrim v => Ok (OPrim v)
    | KStr => match ovr with
              | [] => match j with JStr _ => Ok (OPrim j) | _ => Err PyException end
              | _ => Err PyException
              end
    | KList b' =>
        m <- split_override ovr ;;
        match j with
        | JList l =>
            es <- (fix go (i : nat) (l : list json) : res (list obj) :=
                     match l with
                     | [] => Ok []
                     | x :: l' =>
                         let key := nat_dec i in
                         e <- (match ovr_here (ovr_get key m) with
                               | Some e => Ok e
                               | None => construct x b' (sub_path path key) (ovr_get key m)
                               end) ;;
                         es <- go (S i) l' ;;
                         Ok (e :: es)
                     end) 0 l ;;
            Ok (OList b' path es)
        | _ => Err PyException
        end
    | KMap b' =>
        m <- split_override ovr ;;
        match j with
        | JDict d =>
            es <- (fix go (d : list (string * json)) : res (list (string * obj)) :=
                     match d with
                     | [] => Ok []
                     | (key, x) :: d' =>
                         e <- (match ovr_here (ovr_get key m) with
                               | Some e => Ok e
                               | None => construct x b' (sub_path path key) (ovr_get key m)
                               end) ;;
                         es <- go d' ;;
                         Ok ((key, e) :: es)
                     end) d ;;
            Ok (OMap b' path es)
        | _ => Err PyException
        end
    | KCls c =>
        m <- split_override ovr ;;
        match lookup c tbl with
        | None => Err KeyError
        | Some cd =>
            kids <- (fix each (cs : list childdef) : res (list (string * obj)) :=
                       match cs with
                       | [] => Ok []
                       | ch :: cs' =>
                           let key := ch_name ch in
                           kid <- (match ovr_here (ovr_get key m) with
                                   | Some e => Ok (Some e)
                                   | None =>
                                       match j with
                                       | JDict d =>
                                           (fix find (d : list (string * json)) : res (option obj) :=
                                              match d with
                                              | [] => if ch_required ch then Err FieldNotExist else Ok None
                                              | (k', x) :: d' =>
                                                  if String.eqb key k' then
                                                    match x with
                                                    | JNull => Ok None
                                                    | _ => rmap Some (construct x (ch_builder ch) (sub_path path key) (ovr_get key m))
                                                    end
                                                  else find d'
                                              end) d
                                       | _ => _ <- absent_child j ch ;; Ok None
                                       end
                                   end) ;;
                           rest <- each cs' ;;
                           Ok (match kid with Some o => (key, o) :: rest | None => rest end)
                       end) (c_children cd) ;;
            Ok (OObj c path j kids)
        end
    end.

  (** ** Attribute access *)

  (** the getter of a field -- pyopenapi/migration/spec/obj.py:24-34 *)
  Definition field_get (f : fielddef) (spec : json) : res json :=
    i <- py_in (f_name f) spec ;;
    if (i : bool) then (if f_restricted f then Err PyException else py_getitem (f_name f) spec)
    else if f_required f then Err PyException else Ok (f_default f).

  Definition find_field (name : string) (cd : classdef) : option fielddef :=
    find (fun f => String.eqb name (f_name f)) (c_fields cd).
  Definition find_child (name : string) (cs : list childdef) : option childdef :=
    find (fun c => String.eqb name (ch_name c)) cs.

  (** [getattr(o, name)] of a declared name that is not an alias: children are defined after internals
      and fields (obj.py:520-522), so they win; a child inherited as a property only is built when it
      is first read (its override is not modelled).  Names of Python methods and of instance
      attributes ([spec], [dump], ...) are not modelled: AttributeError here. *)
  Definition getattr_plain (cd : classdef) (path : option string) (spec : json) (kids : list (string * obj))
             (name : string) : res obj :=
    match find_child name (c_children cd) with
    | Some _ => Ok (match lookup name kids with Some o => o | None => OPrim JNull end)
    | None =>
        match find_child name (c_lazy cd) with
        | Some ch =>
            i <- py_in name spec ;;
            if (i : bool) then
              (v <- py_getitem name spec ;;
               match v with JNull => Ok (OPrim JNull) | _ => construct v (ch_builder ch) (sub_path path name) [] end)
            else if ch_required ch then Err FieldNotExist else Ok (OPrim JNull)
        | None =>
            match find_field name cd with
            | Some f => rmap OPrim (field_get f spec)
            | None => Err AttributeError
            end
        end
    end.
  (** [rename] -- pyopenapi/migration/spec/obj.py:57-75; [internal] (obj.py:42-54) reads its default *)
  Definition getattr_ (cd : classdef) (path : option string) (spec : json) (kids : list (string * obj))
             (name : string) : res obj :=
    match find_child name (c_children cd), find_child name (c_lazy cd) with
    | None, None =>
        match lookup name (c_renames cd) with
        | Some key => getattr_plain cd path spec kids key
        | None =>
            match lookup name (c_internal cd) with
            | Some v => Ok (OPrim v)
            | None => getattr_plain cd path spec kids name
            end
        end
    | _, _ => getattr_plain cd path spec kids name
    end.

  (** ** resolve *)

  (** [int(s)] for an optionally signed string of digits; ValueError otherwise (Python also accepts
      surrounding blanks and "_") *)
  Fixpoint digits_val (s : string) (acc : Z) : option Z :=
    match s with
    | EmptyString => Some acc
    | String c r =>
        let n := nat_of_ascii c in
        if Nat.leb 48 n && Nat.leb n 57 then digits_val r (acc * 10 + Z.of_nat (n - 48))%Z else None
    end.
  Definition py_int (s : string) : res Z :=
    let d t := match t with EmptyString => Err ValueError
               | _ => match digits_val t 0%Z with Some z => Ok z | None => Err ValueError end end in
    match s with
    | String "-" r => z <- d r ;; Ok (- z)%Z
    | String "+" r => d r
    | _ => d s
    end.
  (** [l[i]]: negative indices count from the end *)
  Definition py_nth {A} (l : list A) (i : Z) : res A :=
    let i' := if (i <? 0)%Z then (i + Z.of_nat (length l))%Z else i in
    if (i' <? 0)%Z then Err IndexError
    else match nth_error l (Z.to_nat i') with Some x => Ok x | None => Err IndexError end.

  (** the loop of [Base2Obj.resolve] once it has reached a raw value: lists are indexed, dicts looked
      up, anything else ignores the remaining tokens -- pyopenapi/migration/spec/obj.py:562-574 *)
  Fixpoint raw_resolve (j : json) (parts : list string) : res json :=
    match parts with
    | [] => Ok j
    | name :: rest =>
        match j with
        | JList l => i <- py_int name ;; x <- py_nth l i ;; raw_resolve x rest
        | JDict d => match lookup name d with Some x => raw_resolve x rest | None => Err KeyError end
        | _ => raw_resolve j rest
        end
    end.

  (** [resolve(parts)] -- pyopenapi/migration/spec/obj.py:554-574,237-245,384-392; a primitive has no
      [resolve]: AttributeError *)
  Fixpoint resolve (o : obj) (parts : list string) : res obj :=
    match parts with
    | [] => match o with OPrim _ => Err AttributeError | _ => Ok o end
    | name :: rest =>
        match o with
        | OPrim _ => Err AttributeError
        | OObj c path spec kids =>
            match lookup c tbl with
            | None => Err KeyError
            | Some cd =>
                o' <- getattr_ cd path spec kids name ;;
                match o' with
                | OPrim j => rmap OPrim (raw_resolve j rest)
                | _ => resolve o' rest
                end
            end
        | OList _ _ es => i <- py_int name ;; e <- py_nth es i ;; resolve e rest
        | OMap _ _ es => match lookup name es with Some e => resolve e rest | None => Err KeyError end
        end
    end.

  (** ** dump *)

  (** the fields part of [Base2Obj.dump] -- pyopenapi/migration/spec/obj.py:655-663 *)
  Definition dump_fields (fs : list fielddef) (spec : json) : res (list (string * json)) :=
    foldM (fun acc f =>
             i <- py_in (f_name f) spec ;;
             if (i : bool) then
               (v <- field_get f spec ;;
                Ok (match v with JNull => acc | _ => (acc ++ [(f_name f, v)])%list end))
             else Ok acc) fs [].

  (** [dump()] -- pyopenapi/migration/spec/obj.py:638-665,269-280,421-429.  A list whose first element
      is primitive is copied; if another element is an object the result is not JSON (TypeError
      here).  A lazily inherited child ([c_lazy]) is not dumped. *)
  Fixpoint dump (o : obj) : res json :=
    match o with
    | OPrim _ => Err AttributeError
    | OObj c _ spec kids =>
        match lookup c tbl with
        | None => Err KeyError
        | Some cd =>
            ks <- (fix each (cs : list childdef) : res (list (string * json)) :=
                     match cs with
                     | [] => Ok []
                     | ch :: cs' =>
                         kid <- (fix find (kids : list (string * obj)) : res (option json) :=
                                   match kids with
                                   | [] => Ok None
                                   | (k, o') :: kids' =>
                                       if String.eqb (ch_name ch) k
                                       then (if truthy_obj o' then rmap Some (dump o') else Ok None)
                                       else find kids'
                                   end) kids ;;
                         rest <- each cs' ;;
                         Ok (match kid with Some v => (ch_name ch, v) :: rest | None => rest end)
                     end) (c_children cd) ;;
            fs <- dump_fields (filter (fun f => negb (mem (f_name f) ks)) (c_fields cd)) spec ;;
            Ok (JDict (ks ++ fs))
        end
    | OList _ _ es =>
        match es with
        | OPrim _ :: _ =>
            rmap JList (mapM (fun e => match e with OPrim j => Ok j | _ => Err TypeError end) es)
        | _ => rmap JList ((fix go (es : list obj) : res (list json) :=
                              match es with
                              | [] => Ok []
                              | e :: es' => v <- dump e ;; vs <- go es' ;; Ok (v :: vs)
                              end) es)
        end
    | OMap _ _ es =>
        rmap JDict ((fix go (es : list (string * obj)) : res (list (string * json)) :=
                       match es with
                       | [] => Ok []
                       | (k, e) :: es' =>
                           v <- (match e with OPrim j => Ok j | _ => dump e end) ;;
                           vs <- go es' ;; Ok ((k, v) :: vs)
                       end) es)
    end.

  (** ** children listing *)

  (** [get_children()] of a freshly built object (no cache): object children under their raw name,
      objects inside containers under the pointer of their names; a Python dict, so equal names
      overwrite each other -- pyopenapi/migration/spec/obj.py:698-721,286-303,438-455 *)
  Fixpoint get_children (o : obj) : list (string * obj) :=
    match o with
    | OPrim _ => []
    | OObj c _ _ kids =>
        match lookup c tbl with
        | None => []
        | Some cd =>
            fold_left
              (fun acc ch =>
                 (fix find (kids : list (string * obj)) : list (string * obj) :=
                    match kids with
                    | [] => acc
                    | (k, o') :: kids' =>
                        if String.eqb (ch_name ch) k then
                          match o' with
                          | OPrim _ => acc
                          | OObj _ _ _ _ => dict_set k o' acc
                          | _ => fold_left (fun acc kv => dict_set (jp_join [ch_name ch; fst kv] None) (snd kv) acc) (get_children o') acc
                          end
                        else find kids'
                    end) kids)
              (c_children cd) []
        end
    | OList _ _ es =>
        (fix go (i : nat) (es : list obj) (acc : list (string * obj)) : list (string * obj) :=
           match es with
           | [] => acc
           | e :: es' =>
               go (S i) es'
                 (match e with
                  | OPrim _ => acc
                  | OObj _ _ _ _ => dict_set (nat_dec i) e acc
                  | _ => fold_left (fun acc kv => dict_set (jp_join [nat_dec i; fst kv] None) (snd kv) acc) (get_children e) acc
                  end)
           end) 0 es []
    | OMap _ _ es =>
        (fix go (es : list (string * obj)) (acc : list (string * obj)) : list (string * obj) :=
           match es with
           | [] => acc
           | (k, e) :: es' =>
               go es'
                 (match e with
                  | OPrim _ => acc
                  | OObj _ _ _ _ => dict_set k e acc
                  | _ => fold_left (fun acc kv => dict_set (jp_join [k; fst kv] None) (snd kv) acc) (get_children e) acc
                  end)
           end) es []
    end.

  (** ** merge_children *)

  (** [merge_children(other)]: for every declared child that is falsy here, take the other object's if
      truthy; the setter refuses primitives -- pyopenapi/migration/spec/obj.py:576-586,118-124 *)
  Definition kid_of (name : string) (kids : list (string * obj)) : obj :=
    match lookup name kids with Some o => o | None => OPrim JNull end.
  Definition merge_kids (cs : list childdef) (kids other : list (string * obj)) : res (list (string * obj)) :=
    foldM (fun acc ch =>
             if truthy_obj (kid_of (ch_name ch) acc) then Ok acc
             else let o := kid_of (ch_name ch) other in
                  if truthy_obj o then
                    match o with OPrim _ => Err PyException | _ => Ok (dict_set (ch_name ch) o acc) end
                  else Ok acc) cs kids.
  Definition merge_children (self other : obj) : res obj :=
    match self, other with
    | OObj c p spec kids, OObj _ _ _ okids =>
        match lookup c tbl with
        | None => Err KeyError
        | Some cd => ks <- merge_kids (c_children cd) kids okids ;; Ok (OObj c p spec ks)
        end
    | _, _ => Err NotImplementedError
    end.
End Construct.
