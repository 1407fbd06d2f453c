(** * Specification: Swagger 1.2 documents and their images in Swagger 2.0. *)
From Coq Require Import String Ascii List Bool Arith ZArith QArith.
From Verif Require Import PyStr PyVal Obj Classes_v1_2 UrlLib SpecUrl.
Import ListNotations.
Close Scope Q_scope. Open Scope string_scope. Open Scope nat_scope.

(** ** documents *)
Notation doc := (list (string * json)).
Definition fields (j : json) : doc := match j with JDict d => d | _ => [] end.
Definition elements (j : json) : list json := match j with JList l => l | _ => [] end.
Definition text (j : json) : string := match j with JStr s => s | _ => "" end.
(** the value under a key; an absent key is the same as null *)
Definition get (j : json) (k : string) : json := match lookup k (fields j) with Some v => v | None => JNull end.
Definition given (j : json) (k : string) : option json := lookup k (fields j).
(** the object has no other keys than these *)
Definition only_keys (ks : list string) (d : doc) : Prop := forall k, ~ In k ks -> lookup k d = None.
(** [o] is an object of class [c] made from the document [j] *)
Definition made (c : string) (j : json) (o : obj) : Prop := exists path, construct v12_table j (BCls c) path [] = Ok o.

(** the listing and the API declarations of an application *)
Definition app_made (ld : json) (ds : list (string * json)) (listing : obj) (apis : list (string * obj)) : Prop :=
  made "ResourceListing" ld listing /\ Forall2 (fun d a => fst d = fst a /\ made "ApiDeclaration" (snd d) (snd a)) ds apis.

(** the name of a resource: its path without the leading slash *)
Definition resource (decl : json) : string := sdrop 1 (text (get decl "resourcePath")).
(** the name of something within a resource *)
Definition scoped (sep scope name : string) : string :=
  if String.eqb scope "" then name else if String.eqb name "" then scope else scope ++ sep ++ name.
Definition ref_to (name : string) : json := JStr ("#/definitions/" ++ name).

(** ** data types *)
Definition primitive_names : list string := ["integer"; "number"; "string"; "boolean"; "array"; "void"].
Definition is_primitive_name (j : json) : bool := match j with JStr s => existsb (String.eqb s) primitive_names | _ => false end.
(** a primitive name becomes "type", any other name (or else "$ref") a reference *)
Definition type_image (sep scope : string) (t : json) (out : doc) : Prop :=
  lookup "type" out = (if is_primitive_name (get t "type") then Some (get t "type") else None) /\
  lookup "$ref" out =
    (if truthy (get t "type") && negb (is_primitive_name (get t "type")) then Some (ref_to (scoped sep scope (text (get t "type"))))
     else if truthy (get t "$ref") then Some (ref_to (scoped sep scope (text (get t "$ref")))) else None).

(** decimal numerals: sign, digits with an optional point, exponent *)
Definition digit_value (c : ascii) : Z := Z.of_nat (nat_of_ascii c - 48).
Fixpoint digits_value (s : string) (acc : Z) : Z :=
  match s with EmptyString => acc | String c r => digits_value r (acc * 10 + digit_value c) end.
Fixpoint all_digits (s : string) : bool := match s with EmptyString => true | String c r => is_digit c && all_digits r end.
Inductive signed : string -> bool -> string -> Prop :=
| sg_none s : signed s false s
| sg_plus s : signed (String "+" s) false s
| sg_minus s : signed (String "-" s) true s.
Definition signed_value (neg : bool) (z : Z) : Z := if neg then (- z)%Z else z.
(** [numeral s m e]: the text [s] is the number m * 10 ^ e *)
Inductive numeral : string -> Z -> Z -> Prop :=
| nm_intro s neg ip pt fp ex e mant :
    signed s neg mant -> mant = ip ++ pt ++ fp ++ ex ->
    all_digits ip = true -> all_digits fp = true -> ip ++ fp <> "" ->
    (pt = "." \/ pt = "" /\ fp = "") -> exponent ex e ->
    numeral s (signed_value neg (digits_value (ip ++ fp) 0)) (e - Z.of_nat (String.length fp))
with exponent : string -> Z -> Prop :=
| ex_none : exponent "" 0
| ex_some c r neg ds : c = "e"%char \/ c = "E"%char -> signed r neg ds -> all_digits ds = true -> ds <> "" ->
    exponent (String c r) (signed_value neg (digits_value ds 0)).
Definition power10 (e : Z) : Q := Qpower (10 # 1) e.
(** the number a bound stands for *)
Inductive number_of : json -> Q -> Prop :=
| no_int z : number_of (JInt z) (inject_Z z)
| no_float q : number_of (JFloat q) q
| no_bool b : number_of (JBool b) (if b then 1 # 1 else 0 # 1)
| no_text s m e q : numeral s m e -> (q == inject_Z m * power10 e)%Q -> number_of (JStr s) q.
(** towards zero *)
Definition truncates (q : Q) (z : Z) : Prop :=
  ((0 <= q -> inject_Z z <= q /\ q < inject_Z (z + 1)) /\ (q <= 0 -> inject_Z (z - 1) < q /\ q <= inject_Z z))%Q.
Definition bound_image (name : string) (t : json) (out : doc) : Prop :=
  if truthy (get t name) then
    exists q, number_of (get t name) q /\
      ((get t "type" = JStr "integer" /\ exists z, truncates q z /\ lookup name out = Some (JInt z)) \/
       (get t "type" = JStr "number" /\ lookup name out = Some (JFloat q)))
  else lookup name out = None.
Definition items_image (sep scope : string) (t : json) (out : doc) : Prop :=
  type_image sep scope t out /\ lookup "format" out = Some (get t "format") /\ only_keys ["type"; "$ref"; "format"] out.
(** the schema made from a data type (a property, a result, a body parameter) *)
Definition datatype_keys : list string := ["type"; "$ref"; "format"; "default"; "minimum"; "maximum"; "uniqueItems"; "enum"; "items"].
Definition datatype_image (sep scope : string) (t : json) (out : doc) : Prop :=
  type_image sep scope t out /\
  lookup "format" out = given t "format" /\ lookup "default" out = given t "defaultValue" /\
  bound_image "minimum" t out /\ bound_image "maximum" t out /\
  lookup "uniqueItems" out = Some (get t "uniqueItems") /\ lookup "enum" out = Some (get t "enum") /\
  (if match get t "items" with JNull => true | _ => false end then lookup "items" out = None
   else exists i, lookup "items" out = Some (JDict i) /\ items_image sep scope (get t "items") i).

(** ** parameters *)
(** items of a non-body parameter: a primitive type *)
Definition plain_items (t : json) (i : doc) : Prop :=
  truthy (get t "$ref") = false /\ is_primitive_name (get t "type") = true /\
  lookup "type" i = Some (get t "type") /\ lookup "format" i = given t "format".
Definition is_null (j : json) : bool := match j with JNull => true | _ => false end.
(** the places have the same names but "form" *)
Definition place (t : json) : json := match t with JStr "form" => JStr "formData" | x => x end.
Definition parameter_image (sep scope : string) (p : json) (out : doc) : Prop :=
  lookup "name" out = given p "name" /\ lookup "required" out = given p "required" /\ lookup "description" out = given p "description" /\
  lookup "in" out = Some (place (get p "paramType")) /\
  (if match get p "paramType" with JStr "body" => true | _ => false end then
     (exists s, lookup "schema" out = Some (JDict s) /\ datatype_image sep scope p s /\ only_keys datatype_keys s) /\
     only_keys ["name"; "required"; "description"; "in"; "schema"] out
   else
     truthy (get p "$ref") = false /\
     if match get p "allowMultiple" with JBool true => true | _ => false end && is_null (get p "items") then
       (* a list of values: an array of this type *)
       lookup "type" out = Some (JStr "array") /\ lookup "collectionFormat" out = Some (JStr "csv") /\
       lookup "uniqueItems" out = given p "uniqueItems" /\
       lookup "default" out = option_map (fun v => JList [v]) (given p "defaultValue") /\
       (exists i, lookup "items" out = Some (JDict i) /\ plain_items p i /\ lookup "enum" i = Some (get p "enum") /\ only_keys ["type"; "format"; "enum"] i) /\
       only_keys ["name"; "required"; "description"; "in"; "type"; "collectionFormat"; "uniqueItems"; "default"; "items"] out
     else
       (exists t, get p "type" = JStr t /\ lookup "type" out = Some (JStr (lower t))) /\
       lookup "format" out = given p "format" /\ lookup "default" out = given p "defaultValue" /\
       bound_image "minimum" p out /\ bound_image "maximum" p out /\ lookup "enum" out = Some (get p "enum") /\
       (if is_null (get p "items") then
          only_keys ["name"; "required"; "description"; "in"; "type"; "format"; "default"; "minimum"; "maximum"; "enum"] out
        else
          lookup "collectionFormat" out = Some (JStr "csv") /\ lookup "uniqueItems" out = given p "uniqueItems" /\
          (exists i, lookup "items" out = Some (JDict i) /\ plain_items (get p "items") i /\ only_keys ["type"; "format"] i) /\
          only_keys ["name"; "required"; "description"; "in"; "type"; "format"; "default"; "minimum"; "maximum"; "enum";
                     "collectionFormat"; "uniqueItems"; "items"] out)).

(** ** operations *)
Record site := mk_site { at_decl : json; at_api : json; at_op : json }.
(** the operations of a declaration, in order *)
Definition sites_of (decl : json) : list site :=
  flat_map (fun api => map (mk_site decl api) (elements (get api "operations"))) (elements (get decl "apis")).
Definition full_path (s : site) : string := text (get (at_decl s) "basePath") ++ text (get (at_api s) "path").
Definition method_of (s : site) : string := lower (text (get (at_op s) "method")).
Definition all_sites (ds : list (string * json)) : list site := flat_map (fun d => sites_of (snd d)) ds.
(** what the operation says, or else the declaration *)
Definition inherited (s : site) (k : string) : json := if truthy (get (at_op s) k) then get (at_op s) k else get (at_decl s) k.
Definition requirements (j : json) : list json :=
  map (fun nl => JDict [(fst nl, JList (map (fun e => get e "scope") (elements (snd nl))))]) (fields j).
Definition some_if (b : bool) (j : json) : option json := if b then Some j else None.
Definition operation_image (sep : string) (s : site) (out : doc) : Prop :=
  let scope := resource (at_decl s) in
  lookup "tags" out = some_if (negb (String.eqb scope "")) (JList [JStr scope]) /\
  lookup "operationId" out = given (at_op s) "nickname" /\
  lookup "summary" out = given (at_op s) "summary" /\
  lookup "description" out = given (at_op s) "notes" /\
  lookup "deprecated" out = Some (JBool (match get (at_op s) "deprecated" with JStr "true" => true | _ => false end)) /\
  lookup "consumes" out = some_if (truthy (inherited s "consumes")) (inherited s "consumes") /\
  lookup "produces" out = some_if (truthy (inherited s "produces")) (inherited s "produces") /\
  (exists ps, lookup "parameters" out = Some (JList (map JDict ps)) /\
              Forall2 (parameter_image sep scope) (elements (get (at_op s) "parameters")) ps) /\
  lookup "security" out = some_if (truthy (inherited s "authorizations")) (JList (requirements (inherited s "authorizations"))) /\
  (exists r, lookup "responses" out = Some (JDict [("default", JDict r)]) /\ lookup "description" r = Some (JStr "") /\
     only_keys ["description"; "schema"] r /\
     if match get (at_op s) "type" with JStr "void" => true | _ => false end then lookup "schema" r = None
     else exists d, lookup "schema" r = Some (JDict d) /\ datatype_image sep scope (at_op s) d /\ only_keys datatype_keys d) /\
  only_keys ["tags"; "operationId"; "summary"; "description"; "deprecated"; "consumes"; "produces"; "parameters"; "security"; "responses"] out.

(** the last element with a property *)
Fixpoint last_such {A} (f : A -> bool) (l : list A) : option A :=
  match l with
  | [] => None
  | x :: l' => match last_such f l' with Some y => Some y | None => if f x then Some x else None end
  end.

(** ** models *)
(** the models of all declarations, in order, with their declaration *)
Definition all_models (ds : list (string * json)) : list (json * json) :=
  flat_map (fun d => map (fun m => (snd d, snd m)) (fields (get (snd d) "models"))) ds.
Definition model_name (sep : string) (dm : json * json) : string := scoped sep (resource (fst dm)) (text (get (snd dm) "id")).
(** the names of the subtypes of a model: a list of names; Python also takes the keys of a dict and the
    characters of a text *)
Definition names_in (j : json) : list string :=
  match j with
  | JList l => map text l
  | JDict d => map fst d
  | JStr s => map (fun c => String c EmptyString) (list_ascii_of_string s)
  | _ => []
  end.
Definition subtype_names (sep : string) (dm : json * json) : list string :=
  map (scoped sep (resource (fst dm))) (names_in (get (snd dm) "subTypes")).
(** the references to its supertypes the definition [n] gets *)
Definition supertypes (sep n : string) (ms : list (json * json)) : list json :=
  flat_map (fun dm => flat_map (fun t => if String.eqb t n then [JDict [("$ref", ref_to (model_name sep dm))]] else []) (subtype_names sep dm)) ms.
Definition property_image (sep scope : string) (p : json) (out : json) : Prop :=
  exists d, out = JDict d /\ datatype_image sep scope p d /\ lookup "description" d = Some (get p "description") /\
            only_keys ("description" :: datatype_keys) d.
(** the last of the models with the name [n] which gives the key *)
Definition last_giving (sep n : string) (given_key : json * json -> option json) (ms : list (json * json)) : option (json * json) :=
  last_such (fun dm => String.eqb (model_name sep dm) n && match given_key dm with Some _ => true | None => false end) ms.
(** no list at all instead of an empty one *)
Definition list_if_any (l : list json) : option json := match l with [] => None | _ => Some (JList l) end.
Definition definition_image (sep n : string) (ms : list (json * json)) (out : doc) : Prop :=
  (* the properties of the models with this name *)
  (if existsb (fun dm => String.eqb (model_name sep dm) n) ms then
     exists props, lookup "properties" out = Some (JDict props) /\
       forall k, match last_giving sep n (fun dm => given (get (snd dm) "properties") k) ms with
                 | None => lookup k props = None
                 | Some dm => exists p, lookup k props = Some p /\ property_image sep (resource (fst dm)) (get (get (snd dm) "properties") k) p
                 end
   else lookup "properties" out = None) /\
  (forall k, In k ["required"; "discriminator"; "description"] ->
     lookup k out = match last_giving sep n (fun dm => given (snd dm) k) ms with Some dm => given (snd dm) k | None => None end) /\
  lookup "allOf" out = list_if_any (supertypes sep n ms) /\
  only_keys ["properties"; "required"; "discriminator"; "description"; "allOf"] out.

(** ** authorizations *)
Definition first_of (j : json) (ks : list string) : json := fold_left get ks j.
Definition scheme_type (t : json) : json := match t with JStr "basicAuth" => JStr "basic" | x => x end.
Definition security_image (a : json) (out : doc) : Prop :=
  let t := scheme_type (get a "type") in
  let login := first_of a ["grantTypes"; "implicit"; "loginEndpoint"; "url"] in
  let token := first_of a ["grantTypes"; "authorization_code"; "tokenEndpoint"; "url"] in
  let oauth2 := match t with JStr "oauth2" => true | _ => false end in
  let key := match t with JStr "apiKey" => true | _ => false end in
  lookup "type" out = Some t /\
  (exists ss, lookup "scopes" out = Some (JDict ss) /\ NoDup (map fst ss) /\
     forall k, lookup k ss = option_map (fun e => get e "description") (last_such (fun e => String.eqb (text (get e "scope")) k) (elements (get a "scopes")))) /\
  lookup "authorizationUrl" out = some_if (oauth2 && truthy login) login /\
  lookup "tokenUrl" out = some_if (oauth2 && truthy token) token /\
  lookup "flow" out = (if oauth2 then if truthy login then Some (JStr "implicit") else some_if (truthy token) (JStr "access_code") else None) /\
  lookup "name" out = some_if key (get a "keyname") /\ lookup "in" out = some_if key (get a "passAs") /\
  only_keys ["type"; "scopes"; "authorizationUrl"; "tokenUrl"; "flow"; "name"; "in"] out.

(** ** info *)
Definition info_image (ld : json) (out : doc) : Prop :=
  let i := get ld "info" in
  let put k := some_if (truthy (get i k)) (get i k) in
  lookup "version" out = Some (get ld "apiVersion") /\
  lookup "title" out = put "title" /\ lookup "description" out = put "description" /\ lookup "termsOfService" out = put "termsOfServiceUrl" /\
  lookup "contact" out = some_if (truthy (get i "contact")) (JDict [("email", get i "contact")]) /\
  (if truthy (get i "license") || truthy (get i "licenseUrl") then
     exists l, lookup "license" out = Some (JDict l) /\ lookup "name" l = put "license" /\ lookup "url" l = put "licenseUrl" /\ only_keys ["name"; "url"] l
   else lookup "license" out = None) /\
  only_keys ["version"; "title"; "description"; "termsOfService"; "contact"; "license"] out.

(** ** tags *)
(** every element once, in the order of first appearance *)
Fixpoint first_seen (l : list string) (seen : list string) : list string :=
  match l with
  | [] => []
  | x :: l' => if existsb (String.eqb x) seen then first_seen l' seen else x :: first_seen l' (x :: seen)
  end.

(** ** host and paths *)
Definition is_prefix (a b : string) : Prop := exists r, b = a ++ r.
(** [c] is the longest common prefix *)
Definition common_prefix (l : list string) (c : string) : Prop :=
  (forall p, In p l -> is_prefix c p) /\ forall c', (forall p, In p l -> is_prefix c' p) -> is_prefix c' c.

(** [c'] is [c] without one final slash *)
Definition trimmed (c c' : string) : Prop := c <> "" /\ (c = c' ++ "/" \/ c = c' /\ forall x, c <> x ++ "/").
(** [site_prefix c host pre]: the prefix of all urls names the host [host]; [pre] is the part up to it *)
Inductive site_prefix : string -> string -> string -> Prop :=
| sp_host scheme host rest : scheme <> "" -> Forall scheme_letter (chars scheme) -> host <> "" -> free_of "/?#" host ->
    rest = "" \/ (exists r, rest = String "/" r) \/ (exists r, rest = String "?" r) \/ (exists r, rest = String "#" r) ->
    site_prefix (scheme ++ "://" ++ host ++ rest) host (scheme ++ "://" ++ host)
| sp_path rest : rest = "" \/ (exists r, rest = String "/" r /\ forall x, r <> String "/" x) -> site_prefix rest "" "".
(** the document of an object *)
Definition document_of (o : obj) : json := match o with OObj _ _ s _ => s | _ => JNull end.

(** ** documents that can be converted *)
Definition a_dict (j : json) : Prop := exists d, j = JDict d.
Definition a_text (j : json) : Prop := exists s, j = JStr s.
Definition name_or_none (j : json) : Prop := truthy j = true -> a_text j.
Definition good_refs (t : json) : Prop := a_dict t /\ name_or_none (get t "$ref") /\ name_or_none (get t "type").
(** a bound is a number (or a numeral) of a numeric type *)
Definition good_bound (name : string) (t : json) : Prop :=
  truthy (get t name) = true -> (get t "type" = JStr "integer" \/ get t "type" = JStr "number") /\ exists q, number_of (get t name) q.
Definition good_datatype (t : json) : Prop :=
  good_refs t /\ good_bound "minimum" t /\ good_bound "maximum" t /\ (get t "items" = JNull \/ good_refs (get t "items")).
Definition good_plain (t : json) : Prop := a_dict t /\ truthy (get t "$ref") = false /\ is_primitive_name (get t "type") = true.
Definition good_parameter (p : json) : Prop :=
  a_dict p /\ given p "paramType" <> None /\
  if match get p "paramType" with JStr "body" => true | _ => false end then good_datatype p
  else truthy (get p "$ref") = false /\
    if match get p "allowMultiple" with JBool true => true | _ => false end && is_null (get p "items") then is_primitive_name (get p "type") = true
    else a_text (get p "type") /\ good_bound "minimum" p /\ good_bound "maximum" p /\ (get p "items" = JNull \/ good_plain (get p "items")).
Definition texts_or_none (j : json) : Prop := truthy j = true -> exists l, j = JList l /\ Forall a_text l.
Definition good_requirements (j : json) : Prop :=
  truthy j = true -> Forall (fun nl => Forall (fun e => a_dict e /\ a_text (get e "scope")) (elements (snd nl))) (fields j).
Definition verbs : list string := ["get"; "put"; "post"; "delete"; "options"; "head"; "patch"].
Definition good_operation (op : json) : Prop :=
  a_dict op /\ (exists m, get op "method" = JStr m /\ In (lower m) verbs) /\
  (exists ps, get op "parameters" = JList ps /\ Forall good_parameter ps) /\
  texts_or_none (get op "consumes") /\ texts_or_none (get op "produces") /\ good_requirements (get op "authorizations") /\
  (get op "type" = JStr "void" \/ good_datatype op).
Definition good_api (api : json) : Prop :=
  a_dict api /\ a_text (get api "path") /\ exists ops, get api "operations" = JList ops /\ Forall good_operation ops.
Definition good_model (m : json) : Prop :=
  a_dict m /\ a_text (get m "id") /\ (exists ps, get m "properties" = JDict ps /\ Forall (fun np => good_datatype (snd np)) ps) /\
  texts_or_none (get m "subTypes").
Definition good_declaration (d : json) : Prop :=
  a_dict d /\ a_text (get d "resourcePath") /\ a_text (get d "basePath") /\
  texts_or_none (get d "consumes") /\ texts_or_none (get d "produces") /\ good_requirements (get d "authorizations") /\
  (exists apis, get d "apis" = JList apis /\ Forall good_api apis) /\
  (exists ms, get d "models" = JDict ms /\ Forall (fun nm => good_model (snd nm)) ms).
Definition good_endpoint (e : json) : Prop := e = JNull \/ a_dict e /\ given e "url" <> None.
Definition good_authorization (a : json) : Prop :=
  a_dict a /\ Forall (fun e => a_dict e /\ a_text (get e "scope") /\ a_text (get e "description")) (elements (get a "scopes")) /\
  good_endpoint (first_of a ["grantTypes"; "implicit"; "loginEndpoint"]) /\
  good_endpoint (first_of a ["grantTypes"; "authorization_code"; "tokenEndpoint"]).
Definition good_listing (ld : json) : Prop :=
  a_dict ld /\ a_dict (get ld "info") /\ given (get ld "info") "title" <> None /\ given (get ld "info") "description" <> None /\
  Forall (fun na => good_authorization (snd na)) (fields (get ld "authorizations")).
Definition good12 (ld : json) (ds : list (string * json)) : Prop := good_listing ld /\ Forall (fun d => good_declaration (snd d)) ds.
