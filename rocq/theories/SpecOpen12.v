(** * Specification vocabulary: Swagger 1.2 applications that are opened.

    Everything here is a condition on the JSON documents alone: the listing and the API declarations. *)
From Coq Require Import String List Bool.
From Verif Require Import PyStr PyVal Obj Classes_v1_2 Urls UrlLib SpecOpen SpecInside SpecUp12 SpecFollow SpecDoc.
Import ListNotations.
Open Scope string_scope.

(** the API declarations [ds] of the listing [d] at [url]: the documents with the listed names beside it; none of them
    is the listing itself *)
Definition application (fetch : string -> res json) (url : string) (d : list (string * json)) (ds : list (string * json)) : Prop :=
  exists names, SpecOpen.listed d names /\ NoDup names /\
    Forall2 (fun n nd => fst nd = n /\ url_join (url_dirname url) n <> url /\ fetch (url_join (url_dirname url) n) = Ok (snd nd)) names ds.
(** the documents have the JSON types which the classes of 1.2 declare *)
Definition written (ld : json) (ds : list (string * json)) : Prop :=
  SpecFollow.typed v12_table (fun _ _ => True) (BCls "ResourceListing") ld /\
  Forall (fun nd => SpecFollow.typed v12_table (fun _ _ => True) (BCls "ApiDeclaration") (snd nd)) ds.

(** ** references *)
(** the names of the definitions: those of the models and of their subtypes *)
Definition definition_names (sep : string) (ds : list (string * json)) : list string :=
  map (model_name sep) (all_models ds) ++ flat_map (subtype_names sep) (all_models ds).
(** the name [n], used in the declaration [decl], names a definition and can be written in a pointer as it is *)
Definition names_definition (sep : string) (ds : list (string * json)) (decl : json) (n : string) : Prop :=
  In (scoped sep (resource decl) n) (definition_names sep ds) /\ no_escape (scoped sep (resource decl) n).
(** the types named in a data type are primitive or defined *)
Definition closed_type (sep : string) (ds : list (string * json)) (decl t : json) : Prop :=
  (forall n, get t "type" = JStr n -> n = "" \/ In n primitive_names \/ names_definition sep ds decl n) /\
  (forall n, get t "$ref" = JStr n -> n = "" \/ names_definition sep ds decl n).
Definition closed_datatype (sep : string) (ds : list (string * json)) (decl t : json) : Prop :=
  closed_type sep ds decl t /\ (get t "items" = JNull \/ closed_type sep ds decl (get t "items")).
Definition closed_operation (sep : string) (ds : list (string * json)) (decl op : json) : Prop :=
  (get op "type" = JStr "void" \/ closed_datatype sep ds decl op) /\
  (forall p, In p (elements (get op "parameters")) -> get p "paramType" = JStr "body" -> closed_datatype sep ds decl p).
(** all types that are used are primitive or defined; a model with subtypes can be referred to *)
Definition closed12 (sep : string) (ds : list (string * json)) : Prop :=
  (forall s, In s (all_sites ds) -> closed_operation sep ds (at_decl s) (at_op s)) /\
  (forall dm, In dm (all_models ds) ->
     (forall k p, In (k, p) (fields (get (snd dm) "properties")) -> closed_datatype sep ds (fst dm) p) /\
     (names_in (get (snd dm) "subTypes") <> [] -> no_escape (model_name sep dm))).

(** ** "$ref" is used for references only *)
(** no object inside has the key "$ref" *)
Definition no_refs (j : json) : Prop := forall x, inside j (JDict x) -> lookup "$ref" x = None.
(** the values of the fields of an object are such values *)
Definition plain_fields (c : string) (x : list (string * json)) : Prop :=
  forall cd f v, lookup c v12_table = Some cd -> In f (c_fields cd) -> lookup (f_name f) x = Some v -> no_refs v.
Definition tidy12 (sep : string) (ld : json) (ds : list (string * json)) : Prop :=
  SpecFollow.typed v12_table plain_fields (BCls "ResourceListing") ld /\
  Forall (fun nd => SpecFollow.typed v12_table plain_fields (BCls "ApiDeclaration") (snd nd)) ds /\
  ~ In "$ref" (definition_names sep ds) /\
  (forall dm, In dm (all_models ds) -> given (get (snd dm) "properties") "$ref" = None) /\
  (forall n a, In (n, a) (fields (get ld "authorizations")) -> n <> "$ref" /\ forall e, In e (elements (get a "scopes")) -> get e "scope" <> JStr "$ref") /\
  (forall s, In s (all_sites ds) -> given (inherited s "authorizations") "$ref" = None).

(** ** what OpenAPI 3.0 can express *)
(** form parameters have names, only they are files; "required" is a boolean *)
Definition parameter_ok (p : json) : Prop :=
  (get p "required" = JNull \/ exists b, get p "required" = JBool b) /\
  (place (get p "paramType") = JStr "formData" -> exists n, get p "name" = JStr n) /\
  (get p "paramType" <> JStr "body" -> forall t, get p "type" = JStr t -> lower t = "file" -> place (get p "paramType") = JStr "formData").
Definition in_form (p : json) : bool := match place (get p "paramType") with JStr "formData" => true | _ => false end.
Definition in_body (p : json) : bool := match get p "paramType" with JStr "body" => true | _ => in_form p end.
(** the request of an operation: one parameter, or form parameters with different names *)
Definition request_ok (op : json) : Prop :=
  let ms := filter in_body (elements (get op "parameters")) in
  length ms <= 1 \/ (Forall (fun p => in_form p = true) ms /\ NoDup (map (fun p => text (get p "name")) ms)).
(** an oauth2 authorization has an endpoint; one with a login endpoint has scopes *)
Definition authorization_ok (a : json) : Prop :=
  get a "type" = JStr "oauth2" ->
  let login := first_of a ["grantTypes"; "implicit"; "loginEndpoint"; "url"] in
  let token := first_of a ["grantTypes"; "authorization_code"; "tokenEndpoint"; "url"] in
  (truthy login = true \/ truthy token = true) /\ (truthy login = true -> elements (get a "scopes") <> []).
Definition expressible12 (ld : json) (ds : list (string * json)) : Prop :=
  (forall s, In s (all_sites ds) -> request_ok (at_op s) /\ Forall parameter_ok (elements (get (at_op s) "parameters"))) /\
  (forall n a, In (n, a) (fields (get ld "authorizations")) -> authorization_ok a).
(** no path, without the host, is "$ref" or has the form of an extension *)
Definition paths_ok (ds : list (string * json)) : Prop :=
  exists c c' host pre, common_prefix (map full_path (all_sites ds)) c /\ trimmed c c' /\ site_prefix c' host pre /\
    forall s p, In s (all_sites ds) -> full_path s = pre ++ p -> p <> "$ref" /\ startswith "x-" p = false.
