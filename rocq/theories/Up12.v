(** * Model of pyopenapi/migration/versions/v1_2/scanner/upgrade.py: conversion of Swagger 1.2 objects to a
    Swagger 2.0 document.

    Simplifications: names and scopes used as dict keys or in references that are no strings raise
    TypeError (a scope made from a list, a numeric model id without a scope are not modelled); text is
    lower-cased by ASCII rules; [float] knows neither infinities, NaN, "_" nor blanks (ValueError here),
    and its value is the exact fraction; values put into the new document are copies. *)
From Coq Require Import String Ascii List Bool Arith ZArith QArith Qround.
From Verif Require Import PyStr PyVal Jp Scope UrlLib Obj Classes_v1_2 Classes_v2_0 Scan.
Import ListNotations.
Close Scope Q_scope. Open Scope string_scope. Open Scope nat_scope.

Notation dict := (list (string * json)).

(** ** Python access *)
(** [obj.name] *)
Definition attr12 (o : obj) (name : string) : res obj :=
  match o with
  | OObj c p s kids => match lookup c v12_table with None => Err KeyError | Some cd => getattr_ v12_table cd p s kids name end
  | _ => Err AttributeError
  end.
(** the value of a field *)
Definition field12 (o : obj) (name : string) : res json :=
  v <- attr12 o name ;; match v with OPrim j => Ok j | _ => Err TypeError end.
(** [obj.is_set(k)] -- migration/spec/obj.py:153-159 *)
Definition is_set12 (o : obj) (k : string) : res bool := match o with OObj _ _ s _ => py_in k s | _ => Err AttributeError end.
(** [if obj.is_set(k): d[key] = obj.k] *)
Definition put_if_set (o : obj) (k key : string) (d : dict) : res dict :=
  b <- is_set12 o k ;; if b then v <- field12 o k ;; Ok (dict_set key v d) else Ok d.
(** [for x in l] for a [_List] or None *)
Definition elems12 (o : obj) : res (list obj) := match o with OList _ _ es => Ok es | _ => Err TypeError end.
(** [m.iteritems()], [six.iteritems(m)] *)
Definition entries12 (o : obj) : res (list (string * obj)) := match o with OMap _ _ es => Ok es | _ => Err AttributeError end.
(** [x[1:]] *)
Definition from1 (j : json) : res string := match j with JStr s => Ok (sdrop 1 s) | _ => Err TypeError end.
(** [x.lower()] *)
Definition lower_of (j : json) : res string := match j with JStr s => Ok (lower s) | _ => Err AttributeError end.
(** [get_or_none(obj, *names)] -- utils.py:get_or_none: stops at the first falsy value *)
Fixpoint get_or_none (o : obj) (names : list string) : res obj :=
  match names with
  | [] => Ok o
  | x :: rest =>
      match (match attr12 o x with Err AttributeError => Ok (OPrim JNull) | r => r end) with
      | Err e => Err e
      | Ok v => if truthy_obj v then get_or_none v rest else Ok v
      end
  end.
(** [scope_compose(scope, name, sep)] with a string scope -- utils.py:15-31 *)
Definition compose12 (scope : string) (name : json) (sep : string) : res string :=
  match name with
  | JNull => Ok scope
  | JStr n => match scope_compose (Some scope) (Some n) sep with Some s => Ok s | None => Err TypeError end
  | j => if truthy j || negb (truthy_str scope) then Err TypeError else Ok scope
  end.
(** ['#/definitions/' + scope_compose(...)] *)
Definition definition_ref (scope : string) (name : json) (sep : string) : res json :=
  s <- compose12 scope name sep ;; Ok (JStr ("#/definitions/" ++ s)).

(** [_PRIMITIVES], [_is_primitive] -- upgrade.py:23-27 *)
Definition PRIMITIVES : list string := ["integer"; "number"; "string"; "boolean"; "array"; "void"].
Definition is_primitive (j : json) : bool := existsb (fun p => json_is_str p j) PRIMITIVES.

(** [update_type_and_ref(dst, src, scope, sep)] -- upgrade.py:30-38 *)
Definition update_type_and_ref (src : obj) (scope sep : string) (dst : dict) : res dict :=
  ref <- field12 src "$ref" ;;
  dst <- (if truthy ref then r <- definition_ref scope ref sep ;; Ok (dict_set "$ref" r dst) else Ok dst) ;;
  t <- field12 src "type" ;;
  if is_primitive t then s <- lower_of t ;; Ok (dict_set "type" (JStr s) dst)
  else if truthy t then r <- definition_ref scope t sep ;; Ok (dict_set "$ref" r dst)
  else Ok dst.

(** ** [float] *)
(** the digits at the start of a text: value (continuing [acc]), how many, the rest *)
Fixpoint take_digits (s : string) (acc : Z) (n : nat) : Z * nat * string :=
  match s with
  | String c r => if is_digit c then take_digits r (acc * 10 + Z.of_nat (nat_of_ascii c - 48))%Z (S n) else (acc, n, s)
  | EmptyString => (acc, n, s)
  end.
Definition take_sign (s : string) : bool * string :=
  match s with
  | String "-" r => (true, r)
  | String "+" r => (false, r)
  | _ => (false, s)
  end.
(** [mantissa * 10 ^ e] *)
Definition scale10 (m e : Z) : Q := Qred (if (e <? 0)%Z then m # (Z.to_pos (10 ^ (- e))) else inject_Z (m * 10 ^ e)).
Definition parse_float (s : string) : option Q :=
  let (neg, s) := take_sign s in
  let '(v, n, s) := take_digits s 0%Z 0 in
  let '(v, k, s) := match s with String "." r => take_digits r v 0 | _ => (v, 0, s) end in
  let m := if neg then (- v)%Z else v in
  if Nat.eqb (n + k) 0 then None
  else match s with
       | EmptyString => Some (scale10 m (- Z.of_nat k))
       | String c r =>
           if Ascii.eqb c "e" || Ascii.eqb c "E" then
             let (eneg, r) := take_sign r in
             let '(e, en, r) := take_digits r 0%Z 0 in
             match en, r with
             | S _, EmptyString => Some (scale10 m ((if eneg then - e else e) - Z.of_nat k))
             | _, _ => None
             end
           else None
       end.
(** [float(val)] *)
Definition py_float (j : json) : res Q :=
  match j with
  | JInt z => Ok (inject_Z z)
  | JFloat q => Ok q
  | JBool b => Ok (inject_Z (if b then 1 else 0))
  | JStr s => match parse_float s with Some q => Ok q | None => Err ValueError end
  | _ => Err TypeError
  end.
(** [int(f)]: towards zero *)
Definition trunc (q : Q) : Z := Z.quot (Qnum q) (Z.pos (Qden q)).

(** [convert_min_max(dst, src)] -- upgrade.py:41-60 *)
Definition convert_bound (src : obj) (name : string) (dst : dict) : res dict :=
  val <- field12 src name ;;
  if truthy val then
    t <- field12 src "type" ;;
    if json_is_str "integer" t then q <- py_float val ;; Ok (dict_set name (JInt (trunc q)) dst)
    else if json_is_str "number" t then q <- py_float val ;; Ok (dict_set name (JFloat q) dst)
    else Err SchemaError
  else Ok (dict_del name dst).
Definition convert_min_max (src : obj) (dst : dict) : res dict :=
  dst <- convert_bound src "minimum" dst ;; convert_bound src "maximum" dst.

(** [convert_schema_from_datatype(obj, scope, sep)] for an object -- upgrade.py:63-82 *)
Definition convert_schema (o : obj) (scope sep : string) : res dict :=
  d <- update_type_and_ref o scope sep [] ;;
  d <- put_if_set o "format" "format" d ;;
  d <- put_if_set o "defaultValue" "default" d ;;
  d <- convert_min_max o d ;;
  u <- field12 o "uniqueItems" ;;
  e <- field12 o "enum" ;;
  let d := dict_set "enum" e (dict_set "uniqueItems" u d) in
  items <- attr12 o "items" ;;
  if truthy_obj items then
    i <- update_type_and_ref items scope sep [] ;;
    f <- field12 items "format" ;;
    Ok (dict_set "items" (JDict (dict_set "format" f i)) d)
  else Ok d.

(** [convert_items(obj)] -- upgrade.py:85-96 *)
Definition convert_items (o : obj) : res dict :=
  ref <- field12 o "$ref" ;;
  if truthy ref then Err SchemaError
  else
    t <- field12 o "type" ;;
    if is_primitive t then s <- lower_of t ;; put_if_set o "format" "format" [("type", JStr s)]
    else Err SchemaError.

(** [x is None] *)
Definition is_none (o : obj) : bool := match o with OPrim JNull => true | _ => false end.
(** [convert_parameter(param, scope, sep)] -- upgrade.py:99-143 *)
Definition is_true (j : json) : bool := match j with JBool b => b | _ => false end.
Definition convert_parameter (p : obj) (scope sep : string) : res dict :=
  d <- put_if_set p "name" "name" [] ;;
  d <- put_if_set p "required" "required" d ;;
  d <- put_if_set p "description" "description" d ;;
  t <- field12 p "paramType" ;;
  let in_ := if json_is_str "form" t then JStr "formData" else t in
  let d := dict_set "in" in_ d in
  if json_is_str "body" in_ then s <- convert_schema p scope sep ;; Ok (dict_set "schema" (JDict s) d)
  else
    ref <- field12 p "$ref" ;;
    if truthy ref then Err SchemaError
    else
      multiple <- field12 p "allowMultiple" ;;
      items <- attr12 p "items" ;;
      d <- (if is_true multiple && is_none items then
              let d := dict_set "collectionFormat" (JStr "csv") (dict_set "type" (JStr "array") d) in
              d <- put_if_set p "uniqueItems" "uniqueItems" d ;;
              i <- convert_items p ;;
              b <- is_set12 p "defaultValue" ;;
              d <- (if b then v <- field12 p "defaultValue" ;; Ok (dict_set "default" (JList [v]) d) else Ok d) ;;
              e <- field12 p "enum" ;;
              Ok (dict_set "items" (JDict (dict_set "enum" e i)) d)
            else
              ty <- field12 p "type" ;;
              s <- lower_of ty ;;
              d <- put_if_set p "format" "format" (dict_set "type" (JStr s) d) ;;
              d <- put_if_set p "defaultValue" "default" d ;;
              d <- convert_min_max p d ;;
              e <- field12 p "enum" ;;
              Ok (dict_set "enum" e d)) ;;
      if truthy_obj items then
        d <- put_if_set p "uniqueItems" "uniqueItems" (dict_set "collectionFormat" (JStr "csv") d) ;;
        i <- convert_items items ;;
        Ok (dict_set "items" (JDict i) d)
      else Ok d.

(** ** the new document under construction *)
Record sw := mk_sw {
  s_info : dict;
  s_tags : list string;                 (* the names of 'tags' *)
  s_defs : list (string * dict);
  s_paths : list (string * list (string * dict));
  s_secs : list (string * dict) }.

(** [obj.x if obj.x else api_decl.x] *)
Definition or_else (a b : json) : json := if truthy a then a else b.
(** the requirement of one authorization -- upgrade.py:173-178 *)
Definition requirement (name : string) (scopes : obj) : res json :=
  es <- elems12 scopes ;;
  ss <- mapM (fun e => field12 e "scope") es ;;
  Ok (JDict [(name, JList ss)]).
(** the operation made by [convert_operation] -- upgrade.py:146-186 *)
Definition operation_spec (op decl : obj) (sep : string) : res dict :=
  rp <- field12 decl "resourcePath" ;;
  scope <- from1 rp ;;
  let d := if truthy_str scope then [("tags", JList [JStr scope])] else [] in
  d <- put_if_set op "nickname" "operationId" d ;;
  d <- put_if_set op "summary" "summary" d ;;
  d <- put_if_set op "notes" "description" d ;;
  dep <- field12 op "deprecated" ;;
  let d := dict_set "deprecated" (JBool (json_is_str "true" dep)) d in
  c1 <- field12 op "consumes" ;;
  consumes <- (if truthy c1 then Ok c1 else field12 decl "consumes") ;;
  let d := if truthy consumes then dict_set "consumes" consumes d else d in
  p1 <- field12 op "produces" ;;
  produces <- (if truthy p1 then Ok p1 else field12 decl "produces") ;;
  let d := if truthy produces then dict_set "produces" produces d else d in
  ps <- attr12 op "parameters" ;;
  ps <- elems12 ps ;;
  params <- mapM (fun p => s <- convert_parameter p scope sep ;; Ok (JDict s)) ps ;;
  let d := dict_set "parameters" (JList params) d in
  a1 <- attr12 op "authorizations" ;;
  auth <- (if truthy_obj a1 then Ok a1 else attr12 decl "authorizations") ;;
  d <- (if truthy_obj auth then
          es <- entries12 auth ;;
          l <- mapM (fun e => requirement (fst e) (snd e)) es ;;
          Ok (dict_set "security" (JList l) d)
        else Ok d) ;;
  ty <- field12 op "type" ;;
  r <- (if json_is_str "void" ty then Ok [] else s <- convert_schema op scope sep ;; Ok [("schema", JDict s)]) ;;
  Ok (dict_set "responses" (JDict [("default", JDict (dict_set "description" (JStr "") r))]) d).
(** [convert_operation(obj, api, api_decl, swagger, sep)] -- upgrade.py:146-193 *)
Definition add_operation (path method : string) (spec : dict) (paths : list (string * list (string * dict))) : list (string * list (string * dict)) :=
  dict_set path (dict_set method spec (match lookup path paths with Some m => m | None => [] end)) paths.
Definition convert_operation (op api decl : obj) (sep : string) (s : sw) : res sw :=
  spec <- operation_spec op decl sep ;;
  bp <- field12 decl "base_path" ;;
  ap <- field12 api "path" ;;
  match bp, ap with
  | JStr b, JStr a =>
      m <- field12 op "method" ;;
      method <- lower_of m ;;
      Ok (mk_sw (s_info s) (s_tags s) (s_defs s) (add_operation (b ++ a) method spec (s_paths s)) (s_secs s))
  | _, _ => Err TypeError
  end.

(** [d.setdefault(k, {})] *)
Definition entry_of {A} (k : string) (d : list (string * list A)) : list A := match lookup k d with Some x => x | None => [] end.
(** iteration over [model.subTypes or []] *)
Definition iter_json (j : json) : res (list json) :=
  if truthy j then
    match j with
    | JList l => Ok l
    | JDict d => Ok (map (fun kv => JStr (fst kv)) d)
    | JStr s => Ok (map (fun c => JStr (String c EmptyString)) (list_ascii_of_string s))
    | _ => Err TypeError
    end
  else Ok [].
(** [sub_o_spec.setdefault('allOf', []).append(new_ref)]; 'allOf' is a list whenever it exists *)
Definition append_all_of (ref : json) (d : dict) : dict :=
  dict_set "allOf" (JList ((match lookup "allOf" d with Some (JList l) => l | _ => [] end) ++ [JDict [("$ref", ref)]])) d.
(** the properties of a model -- upgrade.py:204-207 *)
Definition property_spec (scope sep : string) (prop : obj) : res json :=
  d <- convert_schema prop scope sep ;; desc <- field12 prop "description" ;; Ok (JDict (dict_set "description" desc d)).
(** [convert_model(model, api_decl, swagger, sep)] -- upgrade.py:196-226 *)
Definition convert_model (model decl : obj) (sep : string) (s : sw) : res sw :=
  rp <- field12 decl "resourcePath" ;;
  scope <- from1 rp ;;
  id <- field12 model "id" ;;
  new_scope <- compose12 scope id sep ;;
  ps <- attr12 model "properties" ;;
  ps <- entries12 ps ;;
  props <- mapM (fun np => p <- property_spec scope sep (snd np) ;; Ok (fst np, p)) ps ;;
  let old := entry_of new_scope (s_defs s) in
  let oldp := match lookup "properties" old with Some (JDict x) => x | _ => [] end in
  let d := dict_set "properties" (JDict (dict_update oldp props)) old in
  d <- put_if_set model "required" "required" d ;;
  d <- put_if_set model "discriminator" "discriminator" d ;;
  d <- put_if_set model "description" "description" d ;;
  let defs := dict_set new_scope d (s_defs s) in
  subs <- field12 model "subTypes" ;;
  subs <- iter_json subs ;;
  defs <- foldM (fun defs t =>
             sub <- compose12 scope t sep ;;
             Ok (dict_set sub (append_all_of (JStr ("#/definitions/" ++ new_scope)) (entry_of sub defs)) defs)) subs defs ;;
  Ok (mk_sw (s_info s) (s_tags s) defs (s_paths s) (s_secs s)).

(** ** the scanner *)
(** [Upgrade._resource_listing] -- upgrade.py:240-289; the constant entries are added in [swagger_spec] *)
Definition put_truthy (key : string) (o : obj) (d : dict) : dict :=
  match o with OPrim j => if truthy j then dict_set key j d else d | _ => d end.
Definition resource_listing (o : obj) : res sw :=
  v <- field12 o "apiVersion" ;;
  let d := [("version", v)] in
  title <- get_or_none o ["info"; "title"] ;;
  let d := put_truthy "title" title d in
  desc <- get_or_none o ["info"; "description"] ;;
  let d := put_truthy "description" desc d in
  terms <- get_or_none o ["info"; "termsOfServiceUrl"] ;;
  let d := put_truthy "termsOfService" terms d in
  info <- attr12 o "info" ;;
  contact <- field12 info "contact" ;;
  let d := if truthy contact then dict_set "contact" (JDict [("email", contact)]) d else d in
  lic <- field12 info "license" ;;
  url <- field12 info "licenseUrl" ;;
  let d := if truthy lic || truthy url
           then dict_set "license" (JDict (put_truthy "url" (OPrim url) (put_truthy "name" (OPrim lic) []))) d else d in
  Ok (mk_sw d [] [] [] []).
(** [Upgrade._api_declaration] -- upgrade.py:291-309 *)
Definition add_tag (name : string) (tags : list string) : list string :=
  if existsb (String.eqb name) tags then tags else (tags ++ [name])%list.
Definition api_declaration (sep : string) (o : obj) (s : sw) : res sw :=
  rp <- field12 o "resource_path" ;;
  name <- from1 rp ;;
  let s := mk_sw (s_info s) (add_tag name (s_tags s)) (s_defs s) (s_paths s) (s_secs s) in
  apis <- attr12 o "apis" ;;
  apis <- elems12 apis ;;
  s <- foldM (fun s api =>
          ops <- attr12 api "operations" ;;
          ops <- elems12 ops ;;
          foldM (fun s op => convert_operation op api o sep s) ops s) apis s ;;
  models <- attr12 o "models" ;;
  models <- entries12 models ;;
  foldM (fun s m => convert_model (snd m) o sep s) models s.
(** [_get_name(path)] -- upgrade.py:19-20: the third part of a path *)
Definition get_name (path : string) : res string :=
  match nth_error (split_char "/" path) 2 with Some x => Ok x | None => Err IndexError end.
(** [Upgrade._authorization] -- upgrade.py:311-345 *)
Definition authorization_spec (o : obj) : res dict :=
  t <- field12 o "type" ;;
  let t := if json_is_str "basicAuth" t then JStr "basic" else t in
  so <- attr12 o "scopes" ;;
  ss <- (if truthy_obj so then elems12 so else Ok []) ;;
  scopes <- foldM (fun acc e =>
              k <- field12 e "scope" ;; v <- field12 e "description" ;;
              match k with JStr k => Ok (dict_set k v acc) | _ => Err TypeError end) ss [] ;;
  let d := [("type", t); ("scopes", JDict scopes)] in
  if json_is_str "oauth2" t then
    au <- get_or_none o ["grantTypes"; "implicit"; "loginEndpoint"; "url"] ;;
    let d := put_truthy "authorizationUrl" au d in
    tu <- get_or_none o ["grantTypes"; "authorization_code"; "tokenEndpoint"; "url"] ;;
    let d := put_truthy "tokenUrl" tu d in
    Ok (if truthy_obj au then dict_set "flow" (JStr "implicit") d
        else if truthy_obj tu then dict_set "flow" (JStr "access_code") d else d)
  else if json_is_str "apiKey" t then
    n <- field12 o "keyname" ;;
    i <- field12 o "passAs" ;;
    Ok (dict_set "in" i (dict_set "name" n d))
  else Ok d.
Definition authorization (path : string) (o : obj) (s : sw) : res sw :=
  d <- authorization_spec o ;;
  name <- get_name path ;;
  Ok (mk_sw (s_info s) (s_tags s) (s_defs s) (s_paths s) (dict_set name d (s_secs s))).

(** the handlers of the scanner, by class; [self.__swagger] is None before the listing has been seen *)
Definition handle12 (sep : string) (st : option sw) (po : string * obj) : res (option sw) :=
  match snd po with
  | OObj c _ _ _ =>
      if String.eqb c "ResourceListing" then s <- resource_listing (snd po) ;; Ok (Some s)
      else if String.eqb c "ApiDeclaration" then
        match st with None => Err TypeError | Some s => s' <- api_declaration sep (snd po) s ;; Ok (Some s') end
      else if String.eqb c "Authorization" then
        match st with None => Err TypeError | Some s => s' <- authorization (fst po) (snd po) s ;; Ok (Some s') end
      else Ok st
  | _ => Ok st
  end.
(** the number of objects of a tree, enough fuel for a traversal *)
Fixpoint tree_size (o : obj) : nat :=
  match o with
  | OPrim _ => 1
  | OObj _ _ _ kids => S ((fix go l := match l with [] => 0 | (_, x) :: l' => tree_size x + go l' end) kids)
  | OList _ _ es => S ((fix go l := match l with [] => 0 | x :: l' => tree_size x + go l' end) es)
  | OMap _ _ es => S ((fix go l := match l with [] => 0 | (_, x) :: l' => tree_size x + go l' end) es)
  end.
(** [scan(root=o, route=[converter])] *)
Definition scan12 (sep : string) (o : obj) (st : option sw) : res (option sw) :=
  l <- default_tree_traversal v12_table (tree_size o) o [] ;;
  foldM (handle12 sep) l st.

(** ** the result *)
(** [os.path.commonprefix]: the common prefix of the least and the greatest text -- here of all *)
Fixpoint common2 (a b : string) : string :=
  match a, b with
  | String x a', String y b' => if Ascii.eqb x y then String x (common2 a' b') else EmptyString
  | _, _ => EmptyString
  end.
Definition commonprefix (l : list string) : string :=
  match l with [] => "" | x :: l' => fold_left common2 l' x end.
(** [x[:-1] if x[-1] == '/' else x] -- upgrade.py:354-357 *)
Definition drop_slash (s : string) : res string :=
  match s with
  | EmptyString => Err IndexError
  | _ => Ok (if endswith "/" s then stake (String.length s - 1) s else s)
  end.
(** host and paths -- upgrade.py:353-367; two keys may become equal, the last one wins *)
Definition strip_host (paths : list (string * list (string * dict))) : res (string * list (string * list (string * dict))) :=
  c <- drop_slash (commonprefix (keys paths)) ;;
  if truthy_str c then
    let u := urlparse c in
    let n := String.length (urlunparse (mk_purl (u_scheme u) (u_netloc u) "" "" "" "")) in
    Ok (u_netloc u, fold_left (fun acc kv => dict_set (sdrop n (fst kv)) (snd kv) acc) paths [])
  else Ok ("", paths).
(** the document handed to [Swagger] -- upgrade.py:243-255,289,347-369 *)
Definition in_dict (d : list (string * dict)) : json := JDict (map (fun kv => (fst kv, JDict (snd kv))) d).
Definition swagger_spec (s : sw) : res dict :=
  hp <- strip_host (s_paths s) ;;
  Ok [("swagger", JStr "2.0"); ("schemes", JList [JStr "http"; JStr "https"]); ("host", JStr (fst hp)); ("basePath", JStr "");
      ("tags", JList (map (fun n => JDict [("name", JStr n)]) (s_tags s)));
      ("definitions", in_dict (s_defs s)); ("parameters", JDict []); ("responses", JDict []);
      ("paths", JDict (map (fun kv => (fst kv, in_dict (snd kv))) (snd hp)));
      ("security", JList []); ("securityDefinitions", in_dict (s_secs s)); ("consumes", JList []); ("produces", JList []);
      ("info", JDict (s_info s))].
(** the conversion in [upgrade] of 2.0: the listing and its API declarations ([cached_apis]) -- versions/v2_0/main.py:16-26;
    only listings have [cached_apis] *)
Definition upgrade12_spec (sep : string) (listing : obj) (apis : list (string * obj)) : res dict :=
  match listing with
  | OObj "ResourceListing" _ _ _ =>
      st <- scan12 sep listing None ;;
      st <- foldM (fun st a => scan12 sep (snd a) st) apis st ;;
      match st with None => Err PyException | Some s => swagger_spec s end
  | _ => Err AttributeError
  end.
Definition upgrade12 (sep : string) (listing : obj) (apis : list (string * obj)) : res obj :=
  d <- upgrade12_spec sep listing apis ;;
  construct v20_table (JDict d) (BCls "Swagger") (Some "#") [].
