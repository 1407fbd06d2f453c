(** * Properties C46 - C50, C63: conversion of whole Swagger 2.0 documents to OpenAPI 3.0. *)
From Coq Require Import String Ascii List Bool Arith.
From Verif Require Import PyStr PyVal UrlLib SpecUrl Obj Classes_v2_0 Classes_v3_0_0 SpecJson SpecObj SpecSchema SpecConv SpecBody SpecOp SpecDoc SpecGiven Store SpecStore Conv20 Up30.
From Verif Require Import ConvFacts SchemaFacts SchemaFacts2 ParamFacts BodyFacts BodyFacts2 OpFacts OpFacts2 PathFacts2 DocFacts DocFacts2 RelocFacts RelocFacts2 RelocFacts3 RelocFacts4 NatDecFacts Up30Facts PropertiesConvAux.
Import ListNotations.
Open Scope string_scope. Open Scope nat_scope.

(** a document with something of everything *)
Definition p_limit : doc := [("name", JStr "limit"); ("in", JStr "query"); ("type", JStr "integer")].
Definition p_body : doc := [("name", JStr "pet"); ("in", JStr "body"); ("schema", JDict [("$ref", JStr "#/definitions/Pet")])].
Definition pet_op : doc :=
  [("operationId", JStr "addPet"); ("schemes", JList [JStr "http"; JStr "wss"]); ("parameters", JList [JDict p_limit]); ("responses", JDict [("200", JDict [("description", JStr "ok")])])].
Definition pets (body_name : string) : doc :=
  [("swagger", JStr "2.0"); ("info", JDict [("title", JStr "t"); ("version", JStr "1"); ("license", JDict [("name", JStr "MIT")])]);
   ("host", JStr "api.com"); ("basePath", JStr "v1"); ("schemes", JList [JStr "http"]);
   ("tags", JList [JDict [("name", JStr "pet")]]);
   ("paths", JDict [("/pets", JDict [("parameters", JList [JDict p_limit; JDict p_body]); ("post", JDict pet_op)])]);
   ("definitions", JDict [("Pet", JDict [("properties", JDict [("na/me", JDict [("type", JStr "string")])])])]);
   ("parameters", JDict [("limit", JDict p_limit); (body_name, JDict p_body)]);
   ("responses", JDict [("NotFound", JDict [("description", JStr "none"); ("schema", JDict [("type", JStr "string")])])]);
   ("securityDefinitions", JDict [("key", JDict [("type", JStr "apiKey"); ("name", JStr "k"); ("in", JStr "header")])])].
Lemma pets_document n : n <> "limit" -> document (pets n).
Proof.
  intros N. split.
  { unfold pets. cbn -[String.eqb]. repeat first [apply conj | exact I | apply NoDup_nil | apply NoDup_cons; [cbn; intuition congruence|]]. }
  split; [right; eexists; reflexivity|]. split; [|split; [now left|]].
  - intros i H. injection H as <-. split; [now left|]. right. eexists. reflexivity.
  - constructor; [|constructor]. eexists. split; [reflexivity|]. now left.
Qed.
Lemma pets_params n : plain_params no_refs (pets n).
Proof.
  intros m v H. change (lookup m [("limit", JDict p_limit); (n, JDict p_body)] = Some v) in H. cbn [lookup] in H.
  destruct (String.eqb m "limit"); [injection H as <-|destruct (String.eqb m n); [injection H as <-|discriminate]]; eexists; (split; [reflexivity|]); (split; [reflexivity|]); (split; [apply no_refs_refers; reflexivity|doc_tac]).
Qed.

(** ** C46: nothing is lost *)
Theorem C46_names (deref : obj -> res obj) (normalized_ref : obj -> res json) (d : doc) (o : obj) (x : doc) (sec : option obj) (reloc : routes) :
  loaded (BCls "Swagger") (JDict d) o -> document d -> plain_params deref d -> to_openapi deref normalized_ref o = Ok (x, sec, reloc) ->
  keys (subd "paths" x) = keys (entries_of (val d "paths")) /\
  keys (subd "schemas" (subd "components" x)) = keys (entries_of (val d "definitions")) /\
  keys (subd "responses" (subd "components" x)) = keys (entries_of (val d "responses")) /\
  keys (subd "securitySchemes" (subd "components" x)) = keys (entries_of (val d "securityDefinitions")) /\
  (exists tags, lookup "tags" x = some_list tags /\ Forall2 (fun t t' => exists td td', t = JDict td /\ t' = JDict td' /\ tag_image td td') (elements_of (val d "tags")) tags) /\
  (forall n, mem n (subd "parameters" (subd "components" x)) = true <-> (exists q, lookup n (entries_of (val d "parameters")) = Some (JDict q) /\ is_merged q = false)) /\
  (forall n, mem n (subd "requestBodies" (subd "components" x)) = true <-> merged_name d n) /\
  (forall k v, lookup k x = Some v -> In k ["openapi"; "info"; "servers"; "paths"; "tags"; "externalDocs"; "components"]) /\
  (forall k v, lookup k (subd "components" x) = Some v -> In k ["schemas"; "parameters"; "requestBodies"; "responses"; "securitySchemes"]).
Proof. exact (document_names deref normalized_ref d o x sec reloc). Qed.
(** every operation of every path is there, with all its fields (the body is the subject of C39 - C42) *)
Theorem C46_operations (deref : obj -> res obj) (normalized_ref : obj -> res json) (d : doc) (o : obj) (x : doc) (sec : option obj) (reloc : routes)
    (p m : string) (pd od : doc) (ps qs : list (doc * doc)) (rs : list (string * (doc * doc))) :
  loaded (BCls "Swagger") (JDict d) o -> document d -> to_openapi deref normalized_ref o = Ok (x, sec, reloc) ->
  lookup p (entries_of (val d "paths")) = Some (JDict pd) -> params_at deref (val pd "parameters") ps -> Forall (fun pq => param_doc (snd pq)) ps ->
  In m methods -> val pd m = JDict od -> wf_json (JDict od) -> params_at deref (val od "parameters") qs -> Forall (fun pq => param_doc (snd pq)) qs ->
  responses_at deref (val od "responses") rs -> object_or_null (val od "externalDocs") ->
  exists y y0 url, jget (JDict x) ["paths"; p; m] (JDict y) /\ operation_image (fun s => with_scheme s url) (texts (val d "produces")) od qs rs y0 /\
    (forall k, k <> "requestBody" -> lookup k y = lookup k y0) /\ lookup "servers" x = Some (JList [JDict [("url", JStr url)]]).
Proof. exact (operation_in_document deref normalized_ref d o x sec reloc p m pd od ps qs rs). Qed.
Theorem C46_extension_path (deref : obj -> res obj) (normalized_ref : obj -> res json) (d : doc) (o : obj) (p : string) (v : json) :
  loaded (BCls "Swagger") (JDict d) o -> document d -> lookup p (entries_of (val d "paths")) = Some v -> startswith "x-" p = true ->
  forall r, to_openapi deref normalized_ref o <> Ok r.
Proof. exact (path_x deref normalized_ref d o p v). Qed.
Example C46_example : exists x reloc, loaded (BCls "Swagger") (JDict (pets "b")) (load "Swagger" (pets "b")) /\ document (pets "b") /\ plain_params no_refs (pets "b") /\
  to_openapi no_refs no_normalized (load "Swagger" (pets "b")) = Ok (x, None, reloc) /\ keys (subd "paths" x) = ["/pets"] /\
  keys (subd "parameters" (subd "components" x)) = ["limit"] /\ keys (subd "requestBodies" (subd "components" x)) = ["b"].
Proof.
  eexists _, _. split; [doc_tac|]. split; [apply pets_document; discriminate|]. split; [apply pets_params|]. split; [vm_compute; reflexivity|]. repeat split; vm_compute; reflexivity.
Qed.

(** ** C47: references to definitions, responses, security definitions *)
(** the pointer of a (sub)schema leads to its image *)
Theorem C47_definitions (deref : obj -> res obj) (normalized_ref : obj -> res json) (d : doc) (o : obj) (x : doc) (sec : option obj) (reloc : routes) (n : string) (s r : json) (tokens : list string) :
  loaded (BCls "Swagger") (JDict d) o -> document d -> to_openapi deref normalized_ref o = Ok (x, sec, reloc) ->
  lookup n (entries_of (val d "definitions")) = Some s -> schema_doc s -> subschema s tokens r ->
  patch_jp (pointer ("definitions" :: n :: tokens)) [("#", RMap reloc)] = Ok (pointer ("components" :: "schemas" :: n :: tokens)) /\
  exists r', jget (JDict x) ("components" :: "schemas" :: n :: tokens) r' /\ schema_image r r'.
Proof. exact (definition_reference deref normalized_ref d o x sec reloc n s tokens r). Qed.
Theorem C47_responses (deref : obj -> res obj) (normalized_ref : obj -> res json) (d : doc) (o : obj) (x : doc) (sec : option obj) (reloc : routes) (n : string) (q : doc) :
  loaded (BCls "Swagger") (JDict d) o -> document d -> to_openapi deref normalized_ref o = Ok (x, sec, reloc) ->
  lookup n (entries_of (val d "responses")) = Some (JDict q) -> is_reference q = false -> refers deref "Response" q q -> response_doc q ->
  (forall tokens, patch_jp (pointer ("responses" :: n :: tokens)) [("#", RMap reloc)] = Ok (pointer ("components" :: "responses" :: n :: tokens))) /\
  exists y, jget (JDict x) ["components"; "responses"; n] (JDict y) /\ response_image (texts (val d "produces")) q y.
Proof. exact (response_reference deref normalized_ref d o x sec reloc n q). Qed.
Theorem C47_schemes (deref : obj -> res obj) (normalized_ref : obj -> res json) (d : doc) (o : obj) (x : doc) (sec : option obj) (reloc : routes) (n : string) (q : doc) :
  loaded (BCls "Swagger") (JDict d) o -> document d -> to_openapi deref normalized_ref o = Ok (x, sec, reloc) ->
  lookup n (entries_of (val d "securityDefinitions")) = Some (JDict q) ->
  (forall tokens, patch_jp (pointer ("securityDefinitions" :: n :: tokens)) [("#", RMap reloc)] = Ok (pointer ("components" :: "securitySchemes" :: n :: tokens))) /\
  exists y, jget (JDict x) ["components"; "securitySchemes"; n] (JDict y) /\ scheme_image q y.
Proof. exact (scheme_reference deref normalized_ref d o x sec reloc n q). Qed.
Example C47_example : exists x reloc, to_openapi no_refs no_normalized (load "Swagger" (pets "b")) = Ok (x, None, reloc) /\
  pointer ["definitions"; "Pet"; "properties"; "na/me"] = "#/definitions/Pet/properties/na~1me" /\
  patch_jp "#/definitions/Pet/properties/na~1me" [("#", RMap reloc)] = Ok "#/components/schemas/Pet/properties/na~1me" /\
  patch_jp "#/responses/NotFound" [("#", RMap reloc)] = Ok "#/components/responses/NotFound" /\
  patch_jp "#/securityDefinitions/key" [("#", RMap reloc)] = Ok "#/components/securitySchemes/key".
Proof. eexists _, _. split; [vm_compute; reflexivity|]. repeat split; vm_compute; reflexivity. Qed.
(** below a response: its schema has moved into the media types, the pointer has not *)
Theorem C47_below_response_refuted : exists x reloc, to_openapi no_refs no_normalized (load "Swagger" (pets "b")) = Ok (x, None, reloc) /\
  patch_jp "#/responses/NotFound/schema" [("#", RMap reloc)] = Ok "#/components/responses/NotFound/schema" /\
  forall v, ~ jget (JDict x) ["components"; "responses"; "NotFound"; "schema"] v.
Proof.
  eexists _, _. split; [vm_compute; reflexivity|]. split; [vm_compute; reflexivity|]. intros v H.
  repeat match goal with H : jget (JDict _) (_ :: _) _ |- _ => inversion H; clear H; subst; match goal with L : lookup _ _ = Some _ |- _ => vm_compute in L; first [discriminate L|injection L as <-] end end.
Qed.
(** ** C48: references to parameters *)
(** a global body, form or file parameter *)
Theorem C48_merged (deref : obj -> res obj) (normalized_ref : obj -> res json) (d : doc) (o : obj) (x : doc) (sec : option obj) (reloc : routes) (n : string) (q : doc) (tokens : list string) :
  loaded (BCls "Swagger") (JDict d) o -> document d -> plain_params deref d -> to_openapi deref normalized_ref o = Ok (x, sec, reloc) ->
  lookup n (entries_of (val d "parameters")) = Some (JDict q) -> is_merged q = true -> n <> "" -> no_escape n -> (forall n', merged_name d n' -> contains_char "/" n' = false) -> starts_well tokens ->
  patch_jp (pointer ("parameters" :: n :: tokens)) [("#", RMap reloc)] = Ok (pointer ("components" :: "requestBodies" :: n :: tokens)) /\
  exists b po c, jget (JDict x) ["components"; "requestBodies"; n] (JDict b) /\ param_given deref q q po /\ from_parameter deref po None [] = Ok (b, c).
Proof. exact (merged_parameter_reference deref normalized_ref d o x sec reloc n q tokens). Qed.
(** another global parameter, provided no name of a merged one is a prefix of its name *)
Theorem C48_kept (deref : obj -> res obj) (normalized_ref : obj -> res json) (d : doc) (o : obj) (x : doc) (sec : option obj) (reloc : routes) (n : string) (q : doc) (tokens : list string) :
  loaded (BCls "Swagger") (JDict d) o -> document d -> plain_params deref d -> to_openapi deref normalized_ref o = Ok (x, sec, reloc) ->
  lookup n (entries_of (val d "parameters")) = Some (JDict q) -> is_merged q = false -> n <> "" ->
  (forall n', merged_name d n' -> n' <> "" -> contains_char "/" n' = false /\ ~ prefix_of n' (rfc_escape n)) ->
  patch_jp (pointer ("parameters" :: n :: tokens)) [("#", RMap reloc)] = Ok (pointer ("components" :: "parameters" :: n :: tokens)) /\
  exists p, jget (JDict x) ["components"; "parameters"; n] (JDict p) /\ param_image q p.
Proof. exact (kept_parameter_reference deref normalized_ref d o x sec reloc n q tokens). Qed.
(** a merged parameter of a path item: its shared body *)
Theorem C48_path_merged (deref : obj -> res obj) (normalized_ref : obj -> res json) (d : doc) (o : obj) (x : doc) (sec : option obj) (reloc : routes) (p : string) (pd : doc) (ps : list (doc * doc)) (i : nat) (pq : doc * doc) (tokens : list string) :
  loaded (BCls "Swagger") (JDict d) o -> document d -> to_openapi deref normalized_ref o = Ok (x, sec, reloc) ->
  lookup p (entries_of (val d "paths")) = Some (JDict pd) -> p <> "" -> params_at deref (val pd "parameters") ps -> Forall (fun pq => param_doc (snd pq)) ps ->
  nth_error ps i = Some pq -> is_merged (snd pq) = true -> starts_well tokens ->
  patch_jp (pointer ("paths" :: p :: "parameters" :: nat_dec i :: tokens)) [("#", RMap reloc)] = Ok (pointer ("paths" :: p :: internal_body :: tokens)) /\
  exists b, jget (JDict x) ["paths"; p; internal_body] (JDict b).
Proof. exact (path_body_reference deref normalized_ref d o x sec reloc p pd ps i pq tokens). Qed.
(** a kept parameter of a path item, provided no merged one comes before it *)
Theorem C48_path_kept (deref : obj -> res obj) (normalized_ref : obj -> res json) (d : doc) (o : obj) (x : doc) (sec : option obj) (reloc : routes) (p : string) (pd : doc) (ps : list (doc * doc)) (i : nat) (pq : doc * doc) :
  loaded (BCls "Swagger") (JDict d) o -> document d -> to_openapi deref normalized_ref o = Ok (x, sec, reloc) ->
  lookup p (entries_of (val d "paths")) = Some (JDict pd) -> params_at deref (val pd "parameters") ps -> Forall (fun pq => param_doc (snd pq)) ps ->
  nth_error ps i = Some pq -> (forall j pq', j <= i -> nth_error ps j = Some pq' -> is_merged (snd pq') = false) ->
  (forall tokens, patch_jp (pointer ("paths" :: p :: "parameters" :: nat_dec i :: tokens)) [("#", RMap reloc)] = Ok (pointer ("paths" :: p :: "parameters" :: nat_dec i :: tokens))) /\
  exists k, jget (JDict x) ["paths"; p; "parameters"; nat_dec i] k /\ kept_image (fst pq) k.
Proof. exact (path_kept_reference deref normalized_ref d o x sec reloc p pd ps i pq). Qed.
Example C48_example : exists x reloc, to_openapi no_refs no_normalized (load "Swagger" (pets "b")) = Ok (x, None, reloc) /\
  patch_jp "#/parameters/b" [("#", RMap reloc)] = Ok "#/components/requestBodies/b" /\
  patch_jp "#/parameters/limit" [("#", RMap reloc)] = Ok "#/components/parameters/limit" /\
  patch_jp "#/paths/~1pets/parameters/0" [("#", RMap reloc)] = Ok "#/paths/~1pets/parameters/0" /\
  patch_jp "#/paths/~1pets/parameters/1" [("#", RMap reloc)] = Ok "#/paths/~1pets/x-pyopenapi_internal_request_body".
Proof. eexists _, _. split; [vm_compute; reflexivity|]. repeat split; vm_compute; reflexivity. Qed.
(** a body parameter named "li": the reference to "limit" is relocated to a place that does not exist *)
Theorem C48_prefix_refuted : exists x reloc, to_openapi no_refs no_normalized (load "Swagger" (pets "li")) = Ok (x, None, reloc) /\
  patch_jp "#/parameters/limit" [("#", RMap reloc)] = Ok "#/components/requestBodies/li/mit" /\
  forall v, ~ jget (JDict x) ["components"; "requestBodies"; "li"; "mit"] v.
Proof.
  eexists _, _. split; [vm_compute; reflexivity|]. split; [vm_compute; reflexivity|]. intros v H.
  repeat match goal with H : jget (JDict _) (_ :: _) _ |- _ => inversion H; clear H; subst; match goal with L : lookup _ _ = Some _ |- _ => vm_compute in L; first [discriminate L|injection L as <-] end end.
Qed.
(** a body parameter whose name needs an escape is looked for among the parameters *)
Theorem C48_escape_refuted : exists x reloc, to_openapi no_refs no_normalized (load "Swagger" (pets "a/b")) = Ok (x, None, reloc) /\
  patch_jp "#/parameters/a~1b" [("#", RMap reloc)] = Ok "#/components/parameters/a~1b" /\
  (exists v, jget (JDict x) ["components"; "requestBodies"; "a/b"] v) /\ forall v, ~ jget (JDict x) ["components"; "parameters"; "a/b"] v.
Proof.
  eexists _, _. split; [vm_compute; reflexivity|]. split; [vm_compute; reflexivity|]. split.
  - eexists. eapply jg_key; [vm_compute; reflexivity|]. eapply jg_key; [vm_compute; reflexivity|]. eapply jg_key; [vm_compute; reflexivity|constructor].
  - intros v H. repeat match goal with H : jget (JDict _) (_ :: _) _ |- _ => inversion H; clear H; subst; match goal with L : lookup _ _ = Some _ |- _ => vm_compute in L; first [discriminate L|injection L as <-] end end.
Qed.
(** a kept parameter after a merged one: its index has changed, its pointer has not *)
Definition shifted : doc := [("paths", JDict [("/p", JDict [("parameters", JList [JDict p_body; JDict p_limit])])])].
Theorem C48_shifted_refuted : exists x reloc, to_openapi no_refs no_normalized (load "Swagger" shifted) = Ok (x, None, reloc) /\
  patch_jp "#/paths/~1p/parameters/1" [("#", RMap reloc)] = Ok "#/paths/~1p/parameters/1" /\
  forall v, ~ jget (JDict x) ["paths"; "/p"; "parameters"; "1"] v.
Proof.
  eexists _, _. split; [vm_compute; reflexivity|]. split; [vm_compute; reflexivity|]. intros v H.
  repeat match goal with H : jget (JDict _) (_ :: _) _ |- _ => inversion H; clear H; subst; match goal with L : lookup _ _ = Some _ |- _ => vm_compute in L; first [discriminate L|injection L as <-] end end.
  match goal with H : jget (JList _) _ _ |- _ => inversion H as [| |? i ? ? ? ? Hi Hn]; subst end. destruct i as [|i]; [vm_compute in Hi; discriminate|]. destruct i; discriminate.
Qed.

(** ** C49: servers *)
Theorem C49_server (deref : obj -> res obj) (normalized_ref : obj -> res json) (d : doc) (o : obj) (x : doc) (sec : option obj) (reloc : routes) :
  loaded (BCls "Swagger") (JDict d) o -> document d -> to_openapi deref normalized_ref o = Ok (x, sec, reloc) ->
  text_or_null (val d "host") -> text_or_null (val d "basePath") -> ~ In "" (texts (val d "schemes")) ->
  (text_of (val d "host") <> "" \/ (Forall (fun s => In s ["http"; "https"; "ws"; "wss"]) (texts (val d "schemes")) /\ startswith "//" (text_of (val d "basePath")) = false)) ->
  lookup "servers" x = Some (JList [JDict [("url", JStr (server_text (text_of (val d "host")) (text_of (val d "basePath")) (texts (val d "schemes"))))]]).
Proof. exact (document_server deref normalized_ref d o x sec reloc). Qed.
(** the schemes of an operation: the url of the document with the other scheme *)
Theorem C49_operation (deref : obj -> res obj) (d : doc) (o : obj) (ps : list (doc * doc)) (rs : list (string * (doc * doc))) (body body' : option doc) (scheme host path : string) (pr cs : list string) (x : doc) :
  loaded (BCls "Operation") (JDict d) o -> wf_json (JDict d) -> params_at deref (val d "parameters") ps -> responses_at deref (val d "responses") rs ->
  object_or_null (val d "externalDocs") -> Forall (fun pq => param_doc (snd pq)) ps -> ~ In "" (texts (val d "schemes")) ->
  scheme <> "" -> Forall scheme_letter (chars scheme) -> host <> "" -> free_of "/?#" host -> free_of "?#" path -> (path = "" \/ exists p, path = String "/" p) ->
  to_operation deref o body (scheme ++ "://" ++ host ++ path) pr cs = Ok (x, body') ->
  lookup "servers" x = some_list (map (fun s => JDict [("url", JStr (s ++ "://" ++ host ++ path))]) (texts (val d "schemes"))).
Proof. exact (operation_servers deref d o ps rs body body' scheme host path pr cs x). Qed.
Example C49_example : exists x reloc op, to_openapi no_refs no_normalized (load "Swagger" (pets "b")) = Ok (x, None, reloc) /\
  lookup "servers" x = Some (JList [JDict [("url", JStr "http://api.com/v1")]]) /\
  subd "post" (subd "/pets" (subd "paths" x)) = op /\ lookup "servers" op = Some (JList [JDict [("url", JStr "http://api.com/v1")]; JDict [("url", JStr "wss://api.com/v1")]]).
Proof. eexists _, _, _. split; [vm_compute; reflexivity|]. split; [vm_compute; reflexivity|]. split; [reflexivity|vm_compute; reflexivity]. Qed.
(** without basePath the server url is the bare host, which is a path for OpenAPI 3.0, and the urls of operations have no host *)
Theorem C49_host_only_refuted : server_text "example.com" "" ["http"] = "example.com" /\ with_scheme "https" "example.com" = "https:///example.com" /\ with_scheme "https" "/" = "https:///".
Proof. vm_compute. auto. Qed.

(** ** C50: global security requirements *)
(** valid ones: an object for every requirement *)
Theorem C50_rejected (d : doc) (l : list json) (r : doc) (path : option string) (o : obj) :
  val d "security" = JList l -> In (JDict r) l -> construct v20_table (JDict d) (BCls "Swagger") path [] <> Ok o.
Proof. exact (security_rejected d l r path o). Qed.
Theorem C50_not_migrated (deref : obj -> res obj) (normalized_ref : obj -> res json) (d : doc) (o : obj) (url jp : string) :
  loaded (BCls "Swagger") (JDict d) o -> elements_of (val d "security") <> [] -> forall r, upgrade30 deref normalized_ref o url jp <> Ok r.
Proof. exact (security_not_migrated deref normalized_ref d o url jp). Qed.
Example C50_example : loaded (BCls "Swagger") (JDict [("security", JList [JList []])]) (load "Swagger" [("security", JList [JList []])]) /\
  upgrade30 no_refs no_normalized (load "Swagger" [("security", JList [JList []])]) "" "#" = Err PyException /\
  exists r, upgrade30 no_refs no_normalized (load "Swagger" [("swagger", JStr "2.0"); ("paths", JDict [])]) "" "#" = Ok r.
Proof. split; [doc_tac|]. split; [vm_compute; reflexivity|]. eexists. vm_compute. reflexivity. Qed.

(** ** C63: fields are kept *)
Theorem C63_operation (deref : obj -> res obj) (d : doc) (o : obj) (ps : list (doc * doc)) (rs : list (string * (doc * doc))) (body body' : option doc) (root : string) (pr cs : list string) (x : doc) :
  loaded (BCls "Operation") (JDict d) o -> wf_json (JDict d) -> params_at deref (val d "parameters") ps -> responses_at deref (val d "responses") rs ->
  object_or_null (val d "externalDocs") -> Forall (fun pq => param_doc (snd pq)) ps ->
  to_operation deref o body root pr cs = Ok (x, body') ->
  operation_image (fun s => with_scheme s root) pr d ps rs x.
Proof. intros L W P R E D H. exact (proj1 (to_operation_ok deref d o ps rs body root pr cs x body' L W P R E D H)). Qed.
Theorem C63_info (d : doc) (o : obj) :
  loaded (BCls "Info") (JDict d) o -> object_or_null (val d "contact") -> object_or_null (val d "license") -> exists x, to_info o = Ok x /\ info_image d x.
Proof. exact (info_ok d o). Qed.
Theorem C63_license (d : doc) (o : obj) : loaded (BCls "License") (JDict d) o -> exists x, to_license o = Ok x /\ license_image d x.
Proof. exact (license_ok d o). Qed.
Theorem C63_contact (d : doc) (o : obj) : loaded (BCls "Contact") (JDict d) o -> exists x, to_contact o = Ok x /\ contact_image d x.
Proof. exact (contact_ok d o). Qed.
Theorem C63_tag (d : doc) (o : obj) : loaded (BCls "Tag") (JDict d) o -> object_or_null (val d "externalDocs") -> exists x, to_tag o = Ok x /\ tag_image d x.
Proof. exact (tag_ok d o). Qed.
Theorem C63_xml (d : doc) (o : obj) : loaded (BCls "XMLObject") (JDict d) o -> exists x, to_xml o = Ok x /\ xml_image d x.
Proof. exact (xml_ok o d). Qed.
Theorem C63_external_docs (d : doc) (o : obj) : loaded (BCls "ExternalDocumentation") (JDict d) o -> exists x, to_external_docs o = Ok x /\ docs_image d x.
Proof. exact (docs_ok d o). Qed.
Example C63_example : exists x, to_info (load "Info" [("title", JStr "t"); ("version", JStr "1"); ("contact", JDict [("email", JStr "e")])]) = Ok x /\
  x = [("title", JStr "t"); ("version", JStr "1"); ("contact", JDict [("email", JStr "e")])].
Proof. eexists. split; [vm_compute; reflexivity|reflexivity]. Qed.
(** an operation which switches security off loses this: the global requirements would apply *)
Theorem C63_no_security_refuted : exists x, to_operation no_refs (load "Operation" [("security", JList []); ("responses", JDict [])]) None "/" [] [] = Ok (x, None) /\ lookup "security" x = None.
Proof. eexists. split; vm_compute; reflexivity. Qed.

Print Assumptions C46_names. Print Assumptions C46_operations. Print Assumptions C46_extension_path. Print Assumptions C47_definitions. Print Assumptions C47_responses. Print Assumptions C47_schemes.
Print Assumptions C48_merged. Print Assumptions C48_kept. Print Assumptions C48_path_merged. Print Assumptions C48_path_kept. Print Assumptions C49_server. Print Assumptions C49_operation.
Print Assumptions C50_rejected. Print Assumptions C50_not_migrated. Print Assumptions C63_operation. Print Assumptions C63_info. Print Assumptions C63_license. Print Assumptions C63_contact.
Print Assumptions C63_tag. Print Assumptions C63_xml. Print Assumptions C63_external_docs.
