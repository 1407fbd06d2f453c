(** * Model of pyopenapi/migration/versions/v2_0/scanner/upgrade: conversion of Swagger 2.0 objects to
    OpenAPI 3.0 documents.

    The converters take objects of the Swagger 2.0 tables and return raw dicts.  Simplifications:
    - the argument [path] is left out, it only appears in error messages;
    - [_generate_fields] and names used as dict keys: values that are objects, and names that are not
      strings, are not modelled (TypeError here);
    - the order of dict entries is immaterial ("requestBody" is put last);
    - a dict put into several places is copied, except for the request body of a path item, whose
      sharing is modelled; the list "required" of a schema, which a later form parameter would extend
      in the source object as well, is copied. *)
From Coq Require Import String Ascii List Bool Arith.
From Verif Require Import PyStr PyVal Jp UrlLib Obj Classes_v2_0 Store.
Import ListNotations.
Open Scope string_scope. Open Scope nat_scope.

Notation dict := (list (string * json)).

(** ** constants -- constants.py:6-54 *)
Definition BASE_SCHEMA_FIELDS : list string :=
  ["type"; "format"; "default"; "maximum"; "exclusiveMaximum"; "minimum"; "exclusiveMinimum"; "maxLength"; "minLength";
   "pattern"; "maxItems"; "minItems"; "uniqueItems"; "enum"; "multipleOf"].
Definition SCHEMA_FIELDS : list string :=
  (BASE_SCHEMA_FIELDS ++ ["title"; "maxProperties"; "minProperties"; "description"; "readOnly"; "writeOnly"; "example"])%list.
Definition FORM_TYPES : list string := ["application/x-www-form-urlencoded"; "multipart/form-data"].
Definition FILE_CONTENT_TYPES : list string :=
  ["multipart/form-data"; "application/x-www-form-urlencoded"; "application/octet-stream"; "application/pdf"; "image/*"; "image/gif";
   "image/png"; "image/jpeg"; "image/bmp"; "image/webp"; "audio/*"; "audio/midi"; "audio/mpeg"; "audio/webm"; "audio/ogg"; "audio/wav";
   "video/*"; "video/webm"; "video/ogg"].

(** ** Python access *)
(** [obj.name] *)
Definition gattr (o : obj) (name : string) : res obj :=
  match o with
  | OObj c p s kids => match lookup c v20_table with None => Err KeyError | Some cd => getattr_ v20_table cd p s kids name end
  | _ => Err AttributeError
  end.
(** [getattr(obj, name, None)] *)
Definition gattr_none (o : obj) (name : string) : res obj :=
  match gattr o name with Err AttributeError => Ok (OPrim JNull) | r => r end.
(** the raw value *)
Definition prim (o : obj) : res json := match o with OPrim j => Ok j | _ => Err TypeError end.
Definition gfield (o : obj) (name : string) : res json := v <- gattr o name ;; prim v.
Definition gfield_none (o : obj) (name : string) : res json := v <- gattr_none o name ;; prim v.
(** iteration over a [_List], [_Map] *)
Definition elems (o : obj) : res (list obj) := match o with OList _ _ es => Ok es | _ => Err TypeError end.
Definition entries (o : obj) : res (list (string * obj)) := match o with OMap _ _ es => Ok es | _ => Err TypeError end.
(** the strings of a [list_(is_str)] *)
Definition strs (o : obj) : list string :=
  match o with OList _ _ es => flat_map (fun e => match e with OPrim (JStr s) => [s] | _ => [] end) es | _ => [] end.
(** [k in self.spec] -- obj.py:153-159 *)
Definition is_set (o : obj) (k : string) : res bool := match o with OObj _ _ s _ => py_in k s | _ => Err AttributeError end.
(** a value used as a dict key *)
Definition key_of (j : json) : res string := match j with JStr s => Ok s | _ => Err TypeError end.
(** [d.setdefault(k, {})] where the value is a dict *)
Definition get_dict (k : string) (d : dict) : res dict :=
  match lookup k d with None => Ok [] | Some (JDict x) => Ok x | Some _ => Err TypeError end.

(** [_generate_fields(obj, names)] -- converters.py:12-19 *)
Definition generate_fields (o : obj) (names : list string) : res dict :=
  foldM (fun acc n => v <- gfield_none o n ;; Ok (if is_null v then acc else dict_set n v acc)) names [].

(** [to_style_and_explode(collection_format, in_, type_, path)] -- converters.py:22-46 *)
Definition to_style_and_explode (collection_format in_ type_ : json) : res (option string * option bool) :=
  if json_is_str "csv" collection_format then
    if json_is_str "query" in_ then Ok (Some "form", Some false)
    else if json_is_str "path" in_ || json_is_str "header" in_ then Ok (Some "simple", None)
    else Ok (None, None)
  else if json_is_str "ssv" collection_format then
    if negb (json_is_str "query" in_) || negb (json_is_str "array" type_) then Err SchemaError
    else Ok (Some "spaceDelimited", None)
  else if json_is_str "pipes" collection_format then
    if negb (json_is_str "query" in_) || negb (json_is_str "array" type_) then Err SchemaError
    else Ok (Some "pipeDelimited", None)
  else if json_is_str "multi" collection_format then
    if json_is_str "query" in_ then Ok (Some "form", Some true) else Ok (None, None)
  else Ok (None, None).
(** [if style: ret['style'] = style; if explode is not None: ret['explode'] = explode]
    -- converters.py:215-218,356-359 *)
Definition put_style (se : option string * option bool) (d : dict) : dict :=
  let d := match fst se with Some s => if truthy_str s then dict_set "style" (JStr s) d else d | None => d end in
  match snd se with Some b => dict_set "explode" (JBool b) d | None => d end.

(** ** small objects *)
(** [to_external_docs] -- converters.py:76-82 *)
Definition to_external_docs (o : obj) : res dict :=
  url <- gfield o "url" ;;
  desc <- gfield o "description" ;;
  Ok (if truthy desc then dict_set "description" desc [("url", url)] else [("url", url)]).
(** [to_tag] -- converters.py:49-59 *)
Definition to_tag (o : obj) : res dict :=
  name <- gfield o "name" ;;
  fs <- generate_fields o ["description"] ;;
  let ret := dict_update [("name", name)] fs in
  ed <- gattr o "externalDocs" ;;
  if truthy_obj ed then (e <- to_external_docs ed ;; Ok (dict_set "externalDocs" (JDict e) ret)) else Ok ret.
(** [to_xml] -- converters.py:62-73 *)
Definition to_xml (o : obj) : res dict := generate_fields o ["name"; "namespace"; "prefix"; "attribute"; "wrapped"].
(** [to_contact], [to_license], [to_info] -- converters.py:497-528 *)
Definition to_contact (o : obj) : res dict := generate_fields o ["name"; "url"; "email"].
Definition to_license (o : obj) : res dict :=
  name <- gfield o "name" ;; fs <- generate_fields o ["url"] ;; Ok (dict_update [("name", name)] fs).
Definition to_info (o : obj) : res dict :=
  title <- gfield o "title" ;;
  version <- gfield o "version" ;;
  fs <- generate_fields o ["description"; "termsOfService"] ;;
  let ret := dict_update [("title", title); ("version", version)] fs in
  c <- gattr o "contact" ;;
  ret <- (if truthy_obj c then (x <- to_contact c ;; Ok (dict_set "contact" (JDict x) ret)) else Ok ret) ;;
  l <- gattr o "license" ;;
  if truthy_obj l then (x <- to_license l ;; Ok (dict_set "license" (JDict x) ret)) else Ok ret.

(** ** schemas *)
(** the number of nodes, used as fuel of the recursive converters *)
Fixpoint osize (o : obj) : nat :=
  match o with
  | OPrim _ => 1
  | OObj _ _ _ kids => S ((fix go (l : list (string * obj)) := match l with [] => 0 | (_, x) :: l' => osize x + go l' end) kids)
  | OList _ _ es => S ((fix go (l : list obj) := match l with [] => 0 | x :: l' => osize x + go l' end) es)
  | OMap _ _ es => S ((fix go (l : list (string * obj)) := match l with [] => 0 | (_, x) :: l' => osize x + go l' end) es)
  end.
(** [from_items] -- converters.py:85-97 *)
Fixpoint from_items_n (fuel : nat) (o : obj) : res dict :=
  match fuel with
  | O => Err OutOfFuel
  | S f =>
      ref <- gfield_none o "$ref" ;;
      if truthy ref then Ok [("$ref", ref)]
      else
        fs <- generate_fields o BASE_SCHEMA_FIELDS ;;
        items <- gattr o "items" ;;
        if truthy_obj items then (x <- from_items_n f items ;; Ok (dict_set "items" (JDict x) fs)) else Ok fs
  end.
Definition from_items (o : obj) : res dict := from_items_n (osize o) o.
(** [to_schema(obj, path, items_converter)] -- converters.py:100-161; [form]: [items_converter] is
    [from_items], otherwise it is [to_schema] *)
Fixpoint to_schema_n (fuel : nat) (form : bool) (o : obj) : res dict :=
  match fuel with
  | O => Err OutOfFuel
  | S f =>
      ref <- gfield_none o "$ref" ;;
      if truthy ref then Ok [("$ref", ref)]
      else
        ty <- gfield_none o "type" ;;
        if json_is_str "file" ty then Ok [("type", JStr "string"); ("format", JStr "binary")]
        else
          fs <- generate_fields o SCHEMA_FIELDS ;;
          required <- gfield_none o "required" ;;
          let ret := match required with JList (x :: l) => dict_set "required" (JList (x :: l)) fs | _ => fs end in
          all_of <- gattr_none o "allOf" ;;
          ret <- (if truthy_obj all_of then
                    (es <- elems all_of ;; xs <- mapM (fun e => rmap JDict (to_schema_n f false e)) es ;; Ok (dict_set "allOf" (JList xs) ret))
                  else Ok ret) ;;
          items <- gattr_none o "items" ;;
          ret <- (if truthy_obj items then
                    (x <- (if form then from_items_n f items else to_schema_n f false items) ;; Ok (dict_set "items" (JDict x) ret))
                  else Ok ret) ;;
          props <- gattr_none o "properties" ;;
          ret <- (if truthy_obj props then
                    (es <- entries props ;;
                     xs <- mapM (fun kv => rmap (fun x => (fst kv, JDict x)) (to_schema_n f form (snd kv))) es ;;
                     Ok (dict_set "properties" (JDict (dict_update [] xs)) ret))
                  else Ok ret) ;;
          addp <- gattr_none o "additionalProperties" ;;
          ret <- (match addp with
                  | OPrim (JBool b) => Ok (if b then ret else dict_set "additionalProperties" (JBool false) ret)
                  | OPrim JNull => Ok ret
                  | _ => x <- to_schema_n f false addp ;; Ok (dict_set "additionalProperties" (JDict x) ret)
                  end) ;;
          disc <- gfield_none o "discriminator" ;;
          let ret := if truthy disc then dict_set "discriminator" (JDict [("propertyName", disc)]) ret else ret in
          xml <- gattr_none o "xml" ;;
          ret <- (if truthy_obj xml then (x <- to_xml xml ;; Ok (dict_set "xml" (JDict x) ret)) else Ok ret) ;;
          ed <- gattr_none o "externalDocs" ;;
          if truthy_obj ed then (x <- to_external_docs ed ;; Ok (dict_set "externalDocs" (JDict x) ret)) else Ok ret
  end.
Definition to_schema (form : bool) (o : obj) : res dict := to_schema_n (osize o) form o.

(** ** security -- converters.py:164-196 *)
Definition to_flows (o : obj) : res dict :=
  flow <- gfield o "flow" ;;
  if negb (truthy flow) then Err SchemaError
  else
    k <- key_of flow ;;
    fs <- generate_fields o ["authorizationUrl"; "tokenUrl"] ;;
    scopes <- gattr o "scopes" ;;
    fs <- (if truthy_obj scopes then (d <- dump v20_table scopes ;; Ok (dict_set "scopes" d fs)) else Ok fs) ;;
    Ok [(k, JDict fs)].
Definition to_security_scheme (o : obj) : res dict :=
  ty <- gfield_none o "type" ;;
  let ret := [("type", ty)] in
  ret <- (if json_is_str "basic" ty then Ok (dict_set "scheme" (JStr "basic") ret)
          else if json_is_str "oauth2" ty then (fl <- to_flows o ;; Ok (dict_set "flows" (JDict fl) ret))
          else Ok ret) ;;
  fs <- generate_fields o ["description"; "name"; "in"] ;;
  Ok (dict_update ret fs).

(** ** headers -- converters.py:199-220 *)
Definition to_header (o : obj) : res dict :=
  ret <- generate_fields o ["description"] ;;
  schema <- generate_fields o BASE_SCHEMA_FIELDS ;;
  items <- gattr o "items" ;;
  schema <- (if truthy_obj items then (x <- from_items items ;; Ok (dict_set "items" (JDict x) schema)) else Ok schema) ;;
  let ret := dict_set "schema" (JDict schema) ret in
  set <- is_set o "collectionFormat" ;;
  if (set : bool) then
    cf <- gfield o "collectionFormat" ;;
    ty <- gfield_none o "type" ;;
    se <- to_style_and_explode cf (JStr "header") ty ;;
    Ok (put_style se ret)
  else Ok ret.

(** ** form parameters *)
(** [_decide_encoding_content_type] -- converters.py:223-240; the inner [while] is the recursion *)
Fixpoint decide_encoding_n (fuel : nat) (o : obj) : res string :=
  match fuel with
  | O => Err OutOfFuel
  | S f =>
      ty <- gfield_none o "type" ;;
      if json_is_str "file" ty then Ok "application/octet-stream"
      else if json_is_str "object" ty then Ok "application/json"
      else if json_is_str "array" ty then (items <- gattr o "items" ;; decide_encoding_n f items)
      else Ok "text/plain"
  end.
Definition decide_encoding_content_type (o : obj) : res string := decide_encoding_n (S (osize o)) o.
(** [to_encoding(obj, content_type, path)] -- converters.py:243-263 *)
Definition to_encoding (o : obj) (content_type : string) : res dict :=
  if str_in content_type ["application/x-www-form-urlencoded"; "multipart/form-data"] then
    ct <- decide_encoding_content_type o ;;
    let ret := [("contentType", JStr ct)] in
    set <- is_set o "collectionFormat" ;;
    if (set : bool) then
      cf <- gfield o "collectionFormat" ;;
      in_ <- gfield_none o "in" ;;
      ty <- gfield_none o "type" ;;
      se <- to_style_and_explode cf in_ ty ;;
      match fst se with
      | Some s => if truthy_str s then Ok (put_style se ret) else Ok ret
      | None => Ok ret
      end
    else Ok ret
  else Ok [].

(** [ParameterContext] -- parameter_context.py:16-65 *)
Record pctx := mk_pctx { is_body : bool; is_file : bool; is_form : bool }.
Definition default_mime_type (c : pctx) : string :=
  if is_file c then "multipart/form-data"
  else if is_form c then "application/x-www-form-urlencoded"
  else if is_body c then "application/json"
  else "text/plain".
(** [list(set(a) & set(b)) or [default]]; Python's order is arbitrary *)
Definition common_or (a b : list string) (default : string) : list string :=
  match filter (fun x => str_in x b) (nodup string_dec a) with [] => [default] | l => l end.
Definition valid_mime_types (c : pctx) (consumes : list string) : list string :=
  match consumes with
  | [] => [default_mime_type c]
  | _ =>
      if is_file c then common_or consumes FILE_CONTENT_TYPES (default_mime_type c)
      else if is_form c then common_or consumes FORM_TYPES (default_mime_type c)
      else consumes
  end.

Section Converters.
  (** [deref] follows the resolved references of an object (model and properties: Deref.v, C06);
      [normalized_ref] is [obj.get_attrs('migration').normalized_ref] *)
  Variables (deref : obj -> res obj) (normalized_ref : obj -> res json).

  (** [to_media_type(obj, content_type, existing, path)] -- converters.py:266-294 *)
  Definition to_media_type (o : obj) (content_type : string) (existing : dict) : res dict :=
    r <- deref o ;;
    schema <- get_dict "schema" existing ;;
    required <- gfield r "required" ;;
    name <- gfield r "name" ;;
    schema <- (if truthy required then
                 match lookup "required" schema with
                 | None => Ok (dict_set "required" (JList [name]) schema)
                 | Some (JList l) => Ok (dict_set "required" (JList (l ++ [name])) schema)
                 | Some _ => Err AttributeError
                 end
               else Ok schema) ;;
    properties <- get_dict "properties" schema ;;
    n <- key_of name ;;
    if mem n properties then Err SchemaError
    else
      sc <- gattr_none r "schema" ;;
      let src := if truthy_obj sc then sc else r in
      ref <- gattr_none o "$ref" ;;
      prop <- to_schema true (if truthy_obj ref then o else src) ;;
      aev <- gattr_none r "allowEmptyValue" ;;
      let prop := match aev with OPrim (JBool true) => dict_set "nullable" (JBool true) prop | _ => prop end in
      let schema := dict_set "properties" (JDict (dict_set n (JDict prop) properties)) schema in
      let ret := dict_set "schema" (JDict schema) existing in
      enc <- to_encoding src content_type ;;
      match enc with
      | [] => Ok ret
      | _ => e <- get_dict "encoding" ret ;; Ok (dict_set "encoding" (JDict (dict_set n (JDict enc) e)) ret)
      end.

  (** [to_request_body(obj, existing_body, ctx, path)] -- converters.py:297-327; [existing_body] is [None] or a
      non-empty dict *)
  Definition to_request_body (o : obj) (existing_body : option dict) (c : pctx) (consumes : list string) : res dict :=
    let ret := match existing_body with Some b => b | None => [] end in
    content <- get_dict "content" ret ;;
    r <- deref o ;;
    required <- gfield r "required" ;;
    let ret := if truthy required then dict_set "required" (JBool true) ret else ret in
    let types := valid_mime_types c consumes in
    if is_file c || is_form c then
      content <- foldM (fun ct ty => m <- get_dict ty ct ;; m' <- to_media_type o ty m ;; Ok (dict_set ty (JDict m') ct)) types content ;;
      Ok (dict_set "content" (JDict content) ret)
    else if is_body c then
      match existing_body with
      | Some _ => Err SchemaError
      | None =>
          fs <- generate_fields r ["description"] ;;
          let ret := dict_update ret fs in
          content <- foldM (fun ct ty =>
                              m <- get_dict ty ct ;;
                              sc <- gattr r "schema" ;;
                              s <- to_schema false sc ;;
                              Ok (dict_set ty (JDict (dict_set "schema" (JDict s) m)) ct)) types content ;;
          Ok (dict_set "content" (JDict content) ret)
      end
    else Err SchemaError.

  (** [to_parameter] -- converters.py:330-361 *)
  Definition to_parameter (o : obj) : res dict :=
    ret <- generate_fields o ["description"; "required"; "allowEmptyValue"] ;;
    ty <- gfield_none o "type" ;;
    in_ <- gfield_none o "in" ;;
    schema <- generate_fields o BASE_SCHEMA_FIELDS ;;
    name <- gfield o "name" ;;
    items <- gattr o "items" ;;
    schema <- (if truthy_obj items then (x <- from_items items ;; Ok (dict_set "items" (JDict x) schema)) else Ok schema) ;;
    let ret := match schema with [] => ret | _ => dict_set "schema" (JDict schema) ret end in
    let ret := dict_set "in" in_ (dict_set "name" name ret) in
    set <- is_set o "collectionFormat" ;;
    if (set : bool) then
      cf <- gfield o "collectionFormat" ;;
      se <- to_style_and_explode cf in_ ty ;;
      Ok (put_style se ret)
    else Ok ret.

  (** [from_parameter(obj, existing_body, consumes, path)] -- converters.py:364-390 *)
  Definition from_parameter (o : obj) (existing_body : option dict) (consumes : list string) : res (dict * pctx) :=
    ref <- gattr_none o "$ref" ;;
    r <- deref o ;;
    _ <- gattr r "name" ;;
    in_ <- gattr_none r "in" ;;
    ty <- gattr_none r "type" ;;
    let is s x := match x with OPrim j => json_is_str s j | _ => false end in
    if is "file" ty then
      let c := mk_pctx true true false in
      b <- to_request_body o existing_body c consumes ;; Ok (b, c)
    else if is "formData" in_ then
      let c := mk_pctx true false true in
      b <- to_request_body o existing_body c consumes ;; Ok (b, c)
    else if is "body" in_ then
      sc <- gattr r "schema" ;;
      sr <- (match sc with OPrim _ => Ok sc | _ => deref sc end) ;;
      sty <- gattr_none sr "type" ;;
      let c := mk_pctx true (is "file" sty) false in
      b <- to_request_body o existing_body c consumes ;; Ok (b, c)
    else
      let c := mk_pctx false false false in
      if truthy_obj ref then (j <- prim ref ;; Ok ([("$ref", j)], c))
      else (p <- to_parameter o ;; Ok (p, c)).

  (** [to_response(obj, produces, path)] -- converters.py:393-435 *)
  Definition to_response (o : obj) (produces : list string) : res dict :=
    ref <- gfield_none o "$ref" ;;
    r <- deref o ;;
    sc <- (if truthy ref then gattr r "schema" else Ok (OPrim JNull)) ;;
    if truthy ref && negb (truthy_obj sc) then Ok [("$ref", ref)]
    else
      ret <- generate_fields r ["description"] ;;
      sc <- gattr r "schema" ;;
      ret <- (if truthy_obj sc then
                ty <- gfield_none sc "type" ;;
                let produces := match produces with [] => [if json_is_str "object" ty then "application/json" else "text/plain"] | _ => produces end in
                if json_is_str "file" ty then
                  Ok (dict_set "content" (JDict [("application/octet-stream", JDict [("type", JStr "string"); ("format", JStr "binary")])]) ret)
                else
                  content <- foldM (fun ct ty => s <- to_schema false sc ;; Ok (dict_set ty (JDict [("schema", JDict s)]) ct)) produces [] ;;
                  Ok (dict_set "content" (JDict content) ret)
              else Ok ret) ;;
      hs <- gattr r "headers" ;;
      if truthy_obj hs then
        es <- entries hs ;;
        headers <- foldM (fun acc kv => h <- to_header (snd kv) ;; Ok (dict_set (fst kv) (JDict h) acc)) es [] ;;
        Ok (dict_set "headers" (JDict headers) ret)
      else Ok ret.

  (** [urlsplit(root_url)] with another scheme -- converters.py:488-491 *)
  Definition with_scheme (scheme root_url : string) : string :=
    let (_, r1) := split_scheme root_url in
    let (netloc, r2) := split_netloc r1 in
    let (r3, fragment) := split_at "#" r2 in
    let (p, query) := split_at "?" r3 in
    urlunsplit scheme netloc p query fragment.

  (** the loop over the parameters of an operation or path item: the kept parameters, the body, and the
      positions of the parameters merged into the body -- converters.py:455-466,538-553 *)
  Fixpoint convert_params (ps : list obj) (index : nat) (consumes : list string) (kept : list json) (body : option dict)
    : res (list json * option dict * list nat) :=
    match ps with
    | [] => Ok (kept, body, [])
    | p :: ps' =>
        r <- from_parameter p body consumes ;;
        if is_body (snd r) then
          (x <- convert_params ps' (S index) consumes kept (Some (fst r)) ;;
           let '(kept', body', moved) := x in Ok (kept', body', index :: moved))
        else convert_params ps' (S index) consumes (kept ++ [JDict (fst r)])%list body
    end.
  Definition or_else (a b : list string) : list string := match a with [] => b | _ => a end.

  (** [to_operation(obj, body, root_url, path, produces, consumes)] -- converters.py:438-494: the dict without
      "requestBody", and the body, which is the given one (extended in place) if there is one *)
  Definition to_operation (o : obj) (body : option dict) (root_url : string) (produces consumes : list string) : res (dict * option dict) :=
    ret <- generate_fields o ["summary"; "description"; "operationId"; "deprecated"] ;;
    tags <- gattr o "tags" ;;
    ret <- (if truthy_obj tags then (d <- dump v20_table tags ;; Ok (dict_set "tags" d ret)) else Ok ret) ;;
    sec <- gattr o "security" ;;
    ret <- (if truthy_obj sec then (d <- dump v20_table sec ;; Ok (dict_set "security" d ret)) else Ok ret) ;;
    ps <- gattr o "parameters" ;;
    rb <- (if truthy_obj ps then
             es <- elems ps ;;
             cs <- gattr o "consumes" ;;
             x <- convert_params es 0 (or_else (strs cs) consumes) [] body ;;
             let '(kept, body', _) := x in
             Ok (match kept with [] => ret | _ => dict_set "parameters" (JList kept) ret end, body')
           else Ok (ret, body)) ;;
    let ret := fst rb in
    rs <- gattr o "responses" ;;
    ret <- (if truthy_obj rs then
              es <- entries rs ;;
              pr <- gattr o "produces" ;;
              xs <- foldM (fun acc kv => x <- to_response (snd kv) (or_else (strs pr) produces) ;; Ok (dict_set (fst kv) (JDict x) acc)) es [] ;;
              Ok (dict_set "responses" (JDict xs) ret)
            else Ok ret) ;;
    ed <- gattr o "externalDocs" ;;
    ret <- (if truthy_obj ed then (x <- to_external_docs ed ;; Ok (dict_set "externalDocs" (JDict x) ret)) else Ok ret) ;;
    sch <- gattr o "schemes" ;;
    let ret := if truthy_obj sch
               then dict_set "servers" (JList (map (fun s => JDict [("url", JStr (with_scheme s root_url))]) (strs sch))) ret
               else ret in
    Ok (ret, snd rb).
  (** [if body: ret['requestBody'] = body] -- converters.py:468-469 *)
  Definition with_body (op : dict) (body : option dict) : dict :=
    match body with Some b => dict_set "requestBody" (JDict b) op | None => op end.

  Definition METHODS : list string := ["get"; "put"; "post"; "delete"; "options"; "head"; "patch"].
  (** the loop over the methods -- converters.py:556-573; [shared]: the body of the path item, one dict for
      all operations: every change is seen by all *)
  Fixpoint convert_methods (o : obj) (ms : list string) (shared : option dict) (root_url : string) (produces consumes : list string)
    : res (list (string * (dict * option dict)) * option dict) :=
    match ms with
    | [] => Ok ([], shared)
    | m :: ms' =>
        op <- gattr_none o m ;;
        if truthy_obj op then
          (x <- to_operation op shared root_url produces consumes ;;
           let shared' := match shared with Some _ => snd x | None => None end in
           rest <- convert_methods o ms' shared' root_url produces consumes ;;
           Ok ((m, x) :: fst rest, snd rest))
        else convert_methods o ms' shared root_url produces consumes
    end.
  (** [to_path_item(obj, root_url, path, consumes, produces)] -- converters.py:531-583 *)
  Definition to_path_item (o : obj) (root_url : string) (consumes produces : list string) : res (dict * routes) :=
    ref <- gattr o "ref" ;;
    ret <- (if truthy_obj ref then (n <- normalized_ref o ;; Ok [("$ref", n)]) else Ok []) ;;
    ps <- gattr o "parameters" ;;
    x <- (if truthy_obj ps then (es <- elems ps ;; convert_params es 0 consumes [] None) else Ok ([], None, [])) ;;
    let '(kept, body, moved) := x in
    let reloc := map (fun i => ("parameters/" ++ nat_dec i, RStr "x-pyopenapi_internal_request_body")) moved in
    let ret := match kept with [] => ret | _ => dict_set "parameters" (JList kept) ret end in
    y <- convert_methods o METHODS body root_url produces consumes ;;
    let (ops, body') := (y : list (string * (dict * option dict)) * option dict) in
    let final x := match body with Some _ => body' | None => x end in
    let ret := fold_left (fun acc mx => dict_set (fst mx) (JDict (with_body (fst (snd mx)) (final (snd (snd mx))))) acc) ops ret in
    Ok (match body' with Some b => dict_set "x-pyopenapi_internal_request_body" (JDict b) ret | None => ret end, reloc).

  (** [from_swagger_to_server] -- converters.py:586-592; a host, base path or scheme which is not a string
      is not modelled *)
  Definition text_or_none (j : json) : res string := match j with JStr s => Ok s | JNull => Ok "" | _ => Err TypeError end.
  Definition server_url (o : obj) : res string :=
    host <- gfield o "host" ;; host <- text_or_none host ;;
    base <- gfield o "basePath" ;; base <- text_or_none base ;;
    schemes <- gattr o "schemes" ;;
    let url := if truthy_str base then urlunsplit (match strs schemes with s :: _ => s | [] => "https" end) host base "" "" else host in
    Ok (if truthy_str url then url else "/").

  (** the parts of [components] -- converters.py:642-695 *)
  Definition convert_each (f : obj -> res dict) (es : list (string * obj)) : res dict :=
    foldM (fun acc kv => x <- f (snd kv) ;; Ok (dict_set (fst kv) (JDict x) acc)) es [].
  (** the loop over the global parameters: (parameters, requestBodies, param_reloc) -- converters.py:660-673 *)
  Definition convert_global_params (es : list (string * obj)) : res (dict * dict * routes) :=
    foldM (fun acc kv =>
             let '(ps, bs, rl) := acc in
             x <- from_parameter (snd kv) None [] ;;
             Ok (if is_body (snd x)
                 then (ps, dict_set (fst kv) (JDict (fst x)) bs, dict_set (fst kv) (RStr ("#/components/requestBodies/" ++ fst kv)) rl)
                 else (dict_set (fst kv) (JDict (fst x)) ps, bs, rl))) es ([], [], []).
  Definition set_nonempty (k : string) (d : dict) (ret : dict) : dict := match d with [] => ret | _ => dict_set k (JDict d) ret end.
  (** the paths -- converters.py:608-623 *)
  Definition convert_paths (es : list (string * obj)) (url : string) (consumes produces : list string) : res (dict * routes) :=
    foldM (fun acc kv =>
             if startswith "x-" (fst kv) then Err SchemaError
             else
               x <- to_path_item (snd kv) url consumes produces ;;
               Ok (dict_set (fst kv) (JDict (fst x)) (fst acc),
                   match snd x with [] => snd acc | r => dict_set (jp_encode (fst kv)) (RMap r) (snd acc) end)) es ([], []).

  (** [to_openapi(obj, path)] -- converters.py:595-697: the dict without "security", the object stored under
      "security" (a [_List], not a list), and the relocations *)
  Definition to_openapi (o : obj) : res (dict * option obj * routes) :=
    let ret := [("openapi", JStr "3.0.0")] in
    info <- gattr o "info" ;;
    ret <- (if truthy_obj info then (x <- to_info info ;; Ok (dict_set "info" (JDict x) ret)) else Ok ret) ;;
    url <- server_url o ;;
    let ret := dict_set "servers" (JList [JDict [("url", JStr url)]]) ret in
    cs <- gattr o "consumes" ;;
    pr <- gattr o "produces" ;;
    paths <- gattr o "paths" ;;
    rr <- (if truthy_obj paths then
             es <- entries paths ;;
             x <- convert_paths es url (strs cs) (strs pr) ;;
             Ok (dict_set "paths" (JDict (fst x)) ret, match snd x with [] => [] | r => [("paths", RMap r)] end)
           else Ok (ret, [])) ;;
    let (ret, reloc) := (rr : dict * routes) in
    sec <- gattr o "security" ;;
    tags <- gattr o "tags" ;;
    ret <- (if truthy_obj tags then
              (es <- elems tags ;; xs <- mapM (fun t => rmap JDict (to_tag t)) es ;; Ok (dict_set "tags" (JList xs) ret))
            else Ok ret) ;;
    ed <- gattr o "externalDocs" ;;
    ret <- (if truthy_obj ed then (x <- to_external_docs ed ;; Ok (dict_set "externalDocs" (JDict x) ret)) else Ok ret) ;;
    defs <- gattr o "definitions" ;;
    params <- gattr o "parameters" ;;
    resps <- gattr o "responses" ;;
    secs <- gattr o "securityDefinitions" ;;
    cr <- (if truthy_obj defs then
             (es <- entries defs ;; x <- convert_each (to_schema false) es ;;
              Ok ([("schemas", JDict x)], dict_set "definitions" (RStr "components/schemas") reloc))
           else Ok ([], reloc)) ;;
    cr <- (if truthy_obj params then
             (es <- entries params ;; x <- convert_global_params es ;;
              let '(ps, bs, rl) := x in
              Ok (set_nonempty "requestBodies" bs (set_nonempty "parameters" ps (fst cr)),
                  dict_set "parameters" (RMap (dict_set "" (RStr "#/components/parameters") rl)) (snd cr)))
           else Ok cr) ;;
    cr <- (if truthy_obj resps then
             (es <- entries resps ;; x <- convert_each (fun r => to_response r (strs pr)) es ;;
              Ok (dict_set "responses" (JDict x) (fst cr), dict_set "responses" (RStr "components/responses") (snd cr)))
           else Ok cr) ;;
    cr <- (if truthy_obj secs then
             (es <- entries secs ;; x <- convert_each to_security_scheme es ;;
              Ok (dict_set "securitySchemes" (JDict x) (fst cr), dict_set "securityDefinitions" (RStr "components/securitySchemes") (snd cr)))
           else Ok cr) ;;
    let ret := if truthy_obj defs || truthy_obj params || truthy_obj resps || truthy_obj secs
               then dict_set "components" (JDict (fst cr)) ret else ret in
    Ok (ret, if truthy_obj sec then Some sec else None, snd cr).
End Converters.
