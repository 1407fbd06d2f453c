(** * The fixed fields of the Swagger 1.2, Swagger 2.0 and OpenAPI 3.0.0 specifications.

    Transcribed from the three specifications (not from the code): the objects, their fixed fields,
    and what a field holds.  Object names are the names of the classes of the library. *)
From Coq Require Import String Ascii List Bool.
From Verif Require Import PyVal Obj SpecTables Classes_v1_2 Classes_v2_0 Classes_v3_0_0.
Import ListNotations.
Open Scope string_scope.

(** what a field holds *)
Inductive ftype :=
| Any                        (* a value the library hands back as it stands in the document *)
| Text                       (* a string, as element of a list or of a map *)
| Object_ (n : string)       (* an object of the specification *)
| ListOf (t : ftype)
| MapOf (t : ftype)          (* patterned fields: any name *)
| OrRef (t : ftype)          (* a Reference Object, or [t] *)
| OrBool (t : ftype).        (* a boolean, or [t] *)

(** [Optional d]: the field reads as [d] when the document does not give it *)
Inductive need := Required | Optional (d : json).
Definition fields := list (string * (ftype * need)).
Definition standard := list (string * fields).

(** abbreviations for the tables *)
Definition req (k : string) (t : ftype) : string * (ftype * need) := (k, (t, Required)).
Definition opt (k : string) (t : ftype) : string * (ftype * need) := (k, (t, Optional JNull)).
Definition plain (ks : list string) : fields := map (fun k => opt k Any) ks.
Notation texts := (ListOf Text) (only parsing).
Notation security := (ListOf (MapOf (ListOf Text))) (only parsing).

(** ** Swagger 1.2 *)

(** 4.3.3 Data Type Fields *)
Definition data_type12 : fields :=
  (plain ["type"; "$ref"; "format"; "defaultValue"; "enum"; "minimum"; "maximum"; "uniqueItems"]
   ++ [opt "items" (Object_ "Items")])%list.
Definition swagger12 : standard := [
  (* 5.1 Resource Listing, 5.1.2 Resource, 5.1.3 Info *)
  ("ResourceListing", [req "swaggerVersion" Any; req "apis" (ListOf (Object_ "ResourceInListing")); opt "apiVersion" Any;
                       opt "info" (Object_ "Info"); opt "authorizations" (MapOf (Object_ "Authorization"))]);
  ("ResourceInListing", [req "path" Any; opt "description" Any]);
  ("Info", [req "title" Any; req "description" Any; opt "termsOfServiceUrl" Any; opt "contact" Any; opt "license" Any; opt "licenseUrl" Any]);
  (* 5.1.4 - 5.1.12 Authorizations and grant types *)
  ("Authorization", [req "type" Any; opt "passAs" Any; opt "keyname" Any; opt "scopes" (ListOf (Object_ "Scope"));
                     opt "grantTypes" (Object_ "GrantTypes")]);
  ("Scope", [req "scope" Any; opt "description" Any]);
  ("GrantTypes", [opt "implicit" (Object_ "Implicit"); opt "authorization_code" (Object_ "AuthorizationCode")]);
  ("Implicit", [req "loginEndpoint" (Object_ "LoginEndpoint"); opt "tokenName" Any]);
  ("AuthorizationCode", [req "tokenRequestEndpoint" (Object_ "TokenRequestEndpoint"); req "tokenEndpoint" (Object_ "TokenEndpoint")]);
  ("LoginEndpoint", [req "url" Any]);
  ("TokenRequestEndpoint", [req "url" Any; opt "clientIdName" Any; opt "clientSecretName" Any]);
  ("TokenEndpoint", [req "url" Any; opt "tokenName" Any]);
  (* 5.2 API Declaration, 5.2.2 API, 5.2.3 Operation, 5.2.4 Parameter, 5.2.5 Response Message *)
  ("ApiDeclaration", [req "swaggerVersion" Any; opt "apiVersion" Any; req "basePath" Any; opt "resourcePath" Any;
                      req "apis" (ListOf (Object_ "Api")); opt "models" (MapOf (Object_ "Model")); opt "produces" Any; opt "consumes" Any;
                      opt "authorizations" (MapOf (ListOf (Object_ "Authorizations")))]);
  ("Api", [req "path" Any; opt "description" Any; req "operations" (ListOf (Object_ "Operation"))]);
  ("Operation", ([req "method" Any; opt "summary" Any; opt "notes" Any; req "nickname" Any;
                  opt "authorizations" (MapOf (ListOf (Object_ "Authorizations"))); req "parameters" (ListOf (Object_ "Parameter"));
                  opt "responseMessages" (ListOf (Object_ "ResponseMessage")); opt "produces" Any; opt "consumes" Any; opt "deprecated" Any]
                 ++ data_type12)%list);
  ("Parameter", ([req "paramType" Any; req "name" Any; opt "description" Any; opt "required" Any; opt "allowMultiple" Any] ++ data_type12)%list);
  ("ResponseMessage", [req "code" Any; req "message" Any; opt "responseModel" Any]);
  (* 5.2.7 Model, 5.2.9 Property, 4.3.4 Items; the scopes of an operation *)
  ("Model", [req "id" Any; opt "description" Any; opt "required" Any; req "properties" (MapOf (Object_ "Property")); opt "subTypes" Any;
             opt "discriminator" Any]);
  ("Property", (opt "description" Any :: data_type12)%list);
  ("Items", plain ["type"; "$ref"; "format"]);
  ("Authorizations", [req "scope" Any; opt "description" Any])].

(** ** Swagger 2.0 *)

(** the JSON schema fields shared by Parameter, Items, Header and Schema *)
Definition json_schema : fields :=
  plain ["type"; "format"; "default"; "maximum"; "exclusiveMaximum"; "minimum"; "exclusiveMinimum"; "maxLength"; "minLength"; "pattern";
         "maxItems"; "minItems"; "uniqueItems"; "enum"; "multipleOf"].
Definition collection : string * (ftype * need) := ("collectionFormat", (Any, Optional (JStr "csv"))).
Definition swagger20 : standard := [
  ("Swagger", [req "swagger" Any; req "info" (Object_ "Info"); opt "host" Any; opt "basePath" Any; opt "schemes" texts; opt "consumes" texts;
               opt "produces" texts; req "paths" (MapOf (Object_ "PathItem")); opt "definitions" (MapOf (Object_ "Schema"));
               opt "parameters" (MapOf (Object_ "Parameter")); opt "responses" (MapOf (Object_ "Response"));
               opt "securityDefinitions" (MapOf (Object_ "SecurityScheme")); opt "security" security; opt "tags" (ListOf (Object_ "Tag"));
               opt "externalDocs" (Object_ "ExternalDocumentation")]);
  ("Info", [req "title" Any; opt "description" Any; opt "termsOfService" Any; opt "contact" (Object_ "Contact");
            opt "license" (Object_ "License"); req "version" Any]);
  ("Contact", [opt "name" Any; opt "url" Any; opt "email" Any]);
  ("License", [req "name" Any; opt "url" Any]);
  ("PathItem", [opt "$ref" Any; opt "get" (Object_ "Operation"); opt "put" (Object_ "Operation"); opt "post" (Object_ "Operation");
                opt "delete" (Object_ "Operation"); opt "options" (Object_ "Operation"); opt "head" (Object_ "Operation");
                opt "patch" (Object_ "Operation"); opt "parameters" (ListOf (OrRef (Object_ "Parameter")))]);
  ("Operation", [opt "tags" texts; opt "summary" Any; opt "description" Any; opt "externalDocs" (Object_ "ExternalDocumentation");
                 opt "operationId" Any; opt "consumes" texts; opt "produces" texts; opt "parameters" (ListOf (OrRef (Object_ "Parameter")));
                 req "responses" (MapOf (OrRef (Object_ "Response"))); opt "schemes" texts; opt "deprecated" Any; opt "security" security]);
  ("ExternalDocumentation", [opt "description" Any; req "url" Any]);
  ("Parameter", (json_schema ++ [req "name" Any; req "in" Any; opt "description" Any; opt "required" Any; opt "schema" (Object_ "Schema");
                                 opt "allowEmptyValue" Any; opt "items" (Object_ "Items"); collection])%list);
  ("Items", (json_schema ++ [opt "items" (Object_ "Items"); collection])%list);
  ("Response", [req "description" Any; opt "schema" (Object_ "Schema"); opt "headers" (MapOf (Object_ "Header")); opt "examples" Any]);
  ("Header", (json_schema ++ [opt "description" Any; opt "items" (Object_ "Items"); collection])%list);
  ("Tag", [req "name" Any; opt "description" Any; opt "externalDocs" (Object_ "ExternalDocumentation")]);
  ("Schema", (json_schema ++ plain ["$ref"; "title"; "description"; "maxProperties"; "minProperties"; "discriminator"; "readOnly"; "example"]
              ++ [("required", (Any, Optional (JList []))); opt "items" (Object_ "Schema"); opt "allOf" (ListOf (Object_ "Schema"));
                  opt "properties" (MapOf (Object_ "Schema")); opt "additionalProperties" (OrBool (Object_ "Schema"));
                  opt "xml" (Object_ "XMLObject"); opt "externalDocs" (Object_ "ExternalDocumentation")])%list);
  ("XMLObject", plain ["name"; "namespace"; "prefix"; "attribute"; "wrapped"]);
  ("SecurityScheme", (req "type" Any :: plain ["description"; "name"; "in"; "flow"; "authorizationUrl"; "tokenUrl"]
                      ++ [opt "scopes" (MapOf Text)])%list)].

(** ** OpenAPI 3.0.0 *)

Notation schema30 := (OrRef (Object_ "Schema")) (only parsing).
Notation content30 := (MapOf (Object_ "MediaType")) (only parsing).
Notation callback30 := (OrRef (MapOf (Object_ "PathItem"))) (only parsing).
Definition header30 : fields :=
  (plain ["description"; "required"; "deprecated"; "allowEmptyValue"; "style"; "explode"; "allowReserved"; "example"]
   ++ [opt "schema" schema30; opt "examples" (MapOf (OrRef (Object_ "Example"))); opt "content" content30])%list.
Definition openapi30 : standard := [
  ("OpenApi", [req "openapi" Any; req "info" (Object_ "Info"); opt "servers" (ListOf (Object_ "Server")); req "paths" (MapOf (Object_ "PathItem"));
               opt "components" (Object_ "Components"); opt "security" security; opt "tags" (ListOf (Object_ "Tag"));
               opt "externalDocs" (Object_ "ExternalDocumentation")]);
  ("Info", [req "title" Any; opt "description" Any; opt "termsOfService" Any; opt "contact" (Object_ "Contact");
            opt "license" (Object_ "License"); req "version" Any]);
  ("Contact", [opt "name" Any; opt "url" Any; opt "email" Any]);
  ("License", [req "name" Any; opt "url" Any]);
  ("Server", [req "url" Any; opt "description" Any; opt "variables" (MapOf (Object_ "ServerVariable"))]);
  ("ServerVariable", [opt "enum" texts; req "default" Any; opt "description" Any]);
  ("Components", [opt "schemas" (MapOf schema30); opt "responses" (MapOf (OrRef (Object_ "Response")));
                  opt "parameters" (MapOf (OrRef (Object_ "Parameter"))); opt "examples" (MapOf (OrRef (Object_ "Example")));
                  opt "requestBodies" (MapOf (OrRef (Object_ "RequestBody"))); opt "headers" (MapOf (OrRef (Object_ "Header")));
                  opt "securitySchemes" (MapOf (OrRef (Object_ "SecurityScheme"))); opt "links" (MapOf (OrRef (Object_ "Link")));
                  opt "callbacks" (MapOf callback30)]);
  ("PathItem", [opt "$ref" Any; opt "summary" Any; opt "description" Any; opt "get" (Object_ "Operation"); opt "put" (Object_ "Operation");
                opt "post" (Object_ "Operation"); opt "delete" (Object_ "Operation"); opt "options" (Object_ "Operation");
                opt "head" (Object_ "Operation"); opt "patch" (Object_ "Operation"); opt "trace" (Object_ "Operation");
                opt "servers" (ListOf (Object_ "Server")); opt "parameters" (ListOf (OrRef (Object_ "Parameter")))]);
  ("Operation", [opt "tags" texts; opt "summary" Any; opt "description" Any; opt "externalDocs" (Object_ "ExternalDocumentation");
                 opt "operationId" Any; opt "parameters" (ListOf (OrRef (Object_ "Parameter"))); opt "requestBody" (OrRef (Object_ "RequestBody"));
                 req "responses" (MapOf (OrRef (Object_ "Response"))); opt "callbacks" (MapOf callback30); opt "deprecated" Any;
                 opt "security" security; opt "servers" (ListOf (Object_ "Server"))]);
  ("ExternalDocumentation", [opt "description" Any; req "url" Any]);
  ("Parameter", (req "name" Any :: req "in" Any :: header30)%list);
  ("RequestBody", [opt "description" Any; req "content" content30; opt "required" Any]);
  ("MediaType", [opt "schema" schema30; opt "example" Any; opt "examples" (MapOf (OrRef (Object_ "Example")));
                 opt "encoding" (MapOf (Object_ "Encoding"))]);
  ("Encoding", [opt "contentType" Any; opt "headers" (MapOf (OrRef (Object_ "Header"))); opt "style" Any; opt "explode" Any; opt "allowReserved" Any]);
  ("Response", [req "description" Any; opt "headers" (MapOf (OrRef (Object_ "Header"))); opt "content" content30;
                opt "links" (MapOf (OrRef (Object_ "Link")))]);
  ("Example", plain ["summary"; "description"; "value"; "externalValue"]);
  ("Link", [opt "operationRef" Any; opt "operationId" Any; opt "parameters" (MapOf Any); opt "requestBody" Any; opt "description" Any;
            opt "server" (Object_ "Server")]);
  ("Header", header30);
  ("Tag", [req "name" Any; opt "description" Any; opt "externalDocs" (Object_ "ExternalDocumentation")]);
  ("Schema", (plain ["title"; "multipleOf"; "maximum"; "exclusiveMaximum"; "minimum"; "exclusiveMinimum"; "maxLength"; "minLength"; "pattern";
                     "maxItems"; "minItems"; "uniqueItems"; "maxProperties"; "minProperties"; "required"; "enum"; "type"; "description"; "format";
                     "default"; "nullable"; "readOnly"; "writeOnly"; "example"; "deprecated"]
              ++ [opt "allOf" (ListOf schema30); opt "oneOf" (ListOf schema30); opt "anyOf" (ListOf schema30); opt "not" schema30;
                  opt "items" schema30; opt "properties" (MapOf schema30); opt "additionalProperties" (OrBool schema30);
                  opt "discriminator" (Object_ "Discriminator"); opt "xml" (Object_ "XML_");
                  opt "externalDocs" (Object_ "ExternalDocumentation")])%list);
  ("Discriminator", [req "propertyName" Any; opt "mapping" (MapOf Text)]);
  ("XML_", plain ["name"; "namespace"; "prefix"; "attribute"; "wrapped"]);
  ("SecurityScheme", (req "type" Any :: plain ["description"; "name"; "in"; "scheme"; "bearerFormat"; "openIdConnectUrl"]
                      ++ [opt "flows" (Object_ "OAuthFlows")])%list);
  ("OAuthFlows", [opt "implicit" (Object_ "OAuthFlow"); opt "password" (Object_ "OAuthFlow"); opt "clientCredentials" (Object_ "OAuthFlow");
                  opt "authorizationCode" (Object_ "OAuthFlow")]);
  ("OAuthFlow", [opt "authorizationUrl" Any; opt "tokenUrl" Any; opt "refreshUrl" Any; req "scopes" (MapOf Text)])].

(** ** The fields the library does not handle as specified *)
Definition exceptions := list (string * string).
Definition exceptions12 : exceptions := [].
(** [security] of the whole document is declared as a list of lists of strings *)
Definition exceptions20 : exceptions := [("Swagger", "security")].
(** [deprecated] and [style] are misspelt, [examples] holds one Example instead of a map of them, the values of
    [parameters] must be strings; the last one is a field of the library's own *)
Definition exceptions30 : exceptions :=
  [("Schema", "deprecated"); ("Encoding", "style"); ("MediaType", "examples"); ("Link", "parameters");
   ("PathItem", "x-pyopenapi_internal_request_body")].

(** the standard, the exceptions and the classes of one version *)
Inductive version_of : standard -> exceptions -> ctable -> Prop :=
| of12 : version_of swagger12 exceptions12 v12_table
| of20 : version_of swagger20 exceptions20 v20_table
| of30 : version_of openapi30 exceptions30 v30_table.

(** ** Documents that follow a standard (fields outside of the standard, like "x-..." are allowed in objects) *)
Inductive follows (S : standard) (U : exceptions) : ftype -> json -> Prop :=
| fo_any j : follows S U Any j
| fo_text s : follows S U Text (JStr s)
| fo_list t l : (forall x, In x l -> follows S U t x) -> follows S U (ListOf t) (JList l)
| fo_map t d : (forall k x, In (k, x) d -> follows S U t x) -> follows S U (MapOf t) (JDict d)
| fo_object n fs d :
    In (n, fs) S ->
    (forall k t, In (k, (t, Required)) fs -> mem k d = true) ->
    (forall k t r v, In (k, (t, r)) fs -> lookup k d = Some v -> v <> JNull -> follows S U t v) ->
    (forall k, In (n, k) U -> mem k d = false) ->
    follows S U (Object_ n) (JDict d)
| fo_ref t d : mem "$ref" d = true -> follows S U (OrRef t) (JDict d)
| fo_no_ref t d : mem "$ref" d = false -> follows S U t (JDict d) -> follows S U (OrRef t) (JDict d)
| fo_bool t b : follows S U (OrBool t) (JBool b)
| fo_no_bool t j : (forall b, j <> JBool b) -> follows S U t j -> follows S U (OrBool t) j.

(** ** What the object made from a document has to show *)
Inductive reads (S : standard) (U : exceptions) (T : ctable) : ftype -> json -> obj -> Prop :=
| rd_any j : reads S U T Any j (OPrim j)
| rd_text s : reads S U T Text (JStr s) (OPrim (JStr s))
| rd_list t l b p es : Forall2 (reads S U T t) l es -> reads S U T (ListOf t) (JList l) (OList b p es)
| rd_map t d b p es :
    Forall2 (fun kv ke => fst ke = fst kv /\ reads S U T t (snd kv) (snd ke)) d es ->
    reads S U T (MapOf t) (JDict d) (OMap b p es)
| rd_object n fs d p kids :
    In (n, fs) S ->
    (forall k t r v, In (k, (t, r)) fs -> lookup k d = Some v -> v <> JNull ->
       exists x, getattr T (OObj n p (JDict d) kids) k = Ok x /\ reads S U T t v x) ->
    (forall k t r, In (k, (t, r)) fs -> lookup k d = Some JNull ->
       ~ In (n, k) U -> getattr T (OObj n p (JDict d) kids) k = Ok (OPrim JNull)) ->
    (forall k t v, In (k, (t, Optional v)) fs -> lookup k d = None ->
       ~ In (n, k) U -> getattr T (OObj n p (JDict d) kids) k = Ok (OPrim v)) ->
    reads S U T (Object_ n) (JDict d) (OObj n p (JDict d) kids)
| rd_ref t d v p kids :
    lookup "$ref" d = Some v ->
    getattr T (OObj "Reference" p (JDict d) kids) "ref" = Ok (OPrim v) ->
    reads S U T (OrRef t) (JDict d) (OObj "Reference" p (JDict d) kids)
| rd_no_ref t d o : mem "$ref" d = false -> reads S U T t (JDict d) o -> reads S U T (OrRef t) (JDict d) o
| rd_bool t b : reads S U T (OrBool t) (JBool b) (OPrim (JBool b))
| rd_no_bool t j o : (forall b, j <> JBool b) -> reads S U T t j o -> reads S U T (OrBool t) j o.

(** ** Python names of fields *)

(** camelCase to snake_case *)
Fixpoint snake (s : string) : string :=
  match s with
  | EmptyString => EmptyString
  | String c r =>
      let n := nat_of_ascii c in
      if (Nat.leb 65 n && Nat.leb n 90)%bool then String "_" (String (ascii_of_nat (n + 32)) (snake r)) else String c (snake r)
  end.
(** fields that cannot be written as an attribute in Python, or hide a builtin *)
Definition reserved : list string := ["in"; "not"; "type"; "format"].
Definition python_name (k : string) : string :=
  if String.eqb k "$ref" then "ref" else if existsb (String.eqb k) reserved then k ++ "_" else snake k.
(** fields of OpenAPI 3.0.0 that have no such name, or a misspelt one *)
Definition unnamed30 : exceptions := [("OAuthFlows", "clientCredentials"); ("SecurityScheme", "openIdConnectUrl")].
