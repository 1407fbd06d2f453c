(** * Specification: Swagger 2.0 documents that can be migrated to OpenAPI 3.0.

    [deref] stands for following the resolved references of an object (C06), [normalized_ref] for the absolute
    form of the "$ref" of a path item. *)
From Coq Require Import String List Bool Arith.
From Verif Require Import PyStr PyVal Obj Classes_v2_0 SpecJson SpecSchema SpecConv SpecBody SpecOp SpecDoc SpecGiven.
Import ListNotations.
Open Scope string_scope. Open Scope nat_scope.

(** ** well-formed documents *)
(** an operation: its parameters and its responses, as pairs of the object as written and the object it refers to *)
Notation request := (list (doc * doc) * list (string * (doc * doc)))%type.
Definition operation_given (deref : obj -> res obj) (d : doc) (op : request) : Prop :=
  params_at deref (val d "parameters") (fst op) /\ Forall (fun pq => usable deref (snd pq)) (fst op) /\
  responses_at deref (val d "responses") (snd op) /\ object_or_null (val d "externalDocs").
(** a path item: its own parameters, and for each method the operation (nothing if there is none) *)
Definition path_given (deref : obj -> res obj) (d : doc) (ps : list (doc * doc)) (ops : list request) : Prop :=
  params_at deref (val d "parameters") ps /\ Forall (fun pq => usable deref (snd pq)) ps /\
  Forall2 (fun m op => (val d m = JNull /\ op = ([], [])) \/ exists od, val d m = JDict od /\ operation_given deref od op) methods ops.

(** ** what OpenAPI 3.0 can express *)
(** "ssv" and "pipes" are only for arrays in the query *)
Definition format_ok (q : doc) : Prop :=
  query_array_only (val q "collectionFormat") -> is_merged q = false /\ val q "in" = JStr "query" /\ val q "type" = JStr "array".
Definition headers_ok (q : doc) : Prop := forall n h, lookup n (entries_of (val q "headers")) = Some (JDict h) -> ~ query_array_only (val h "collectionFormat").
(** what goes into the request body is either one parameter or form parameters with different names *)
Definition one_request (ps : list (doc * doc)) : Prop :=
  let ms := filter merges ps in
  length ms <= 1 \/ (Forall (fun pq => form_param (snd pq)) ms /\ NoDup (map pname ms)).
(** body and form parameters of a path item go into the same request body as those of all its operations *)
Definition requests_ok (ps : list (doc * doc)) (ops : list request) : Prop :=
  if no_merged ps then Forall (fun op => one_request (fst op)) ops else one_request (ps ++ concat (map fst ops)).
Definition expressible (ps : list (doc * doc)) (ops : list request) : Prop :=
  Forall (fun pq => format_ok (snd pq)) (ps ++ concat (map fst ops)) /\
  Forall (fun op => Forall (fun kr => headers_ok (snd (snd kr))) (snd op)) ops /\ requests_ok ps ops.

(** ** documents *)
(** a well-formed document; [path_ok] is an additional condition on path items *)
Definition migratable (deref : obj -> res obj) (normalized_ref : obj -> res json) (path_ok : string -> list (doc * doc) -> list request -> Prop) (d : doc) : Prop :=
  document d /\ text_or_null (val d "host") /\ text_or_null (val d "basePath") /\
  (forall n v, lookup n (entries_of (val d "definitions")) = Some v -> schema_doc v) /\
  (forall n v, lookup n (entries_of (val d "parameters")) = Some v ->
     exists q, v = JDict q /\ is_reference q = false /\ refers deref "Parameter" q q /\ usable deref q) /\
  (forall n v, lookup n (entries_of (val d "responses")) = Some v ->
     exists q, v = JDict q /\ is_reference q = false /\ refers deref "Response" q q /\ response_doc q) /\
  (forall n v, lookup n (entries_of (val d "securityDefinitions")) = Some v -> exists s, v = JDict s /\ text_or_null (val s "flow")) /\
  (forall k v, lookup k (entries_of (val d "paths")) = Some v ->
     exists p ps ops, v = JDict p /\ path_given deref p ps ops /\ path_ok k ps ops /\
       (truthy (val p "$ref") = true -> forall o, loaded (BCls "PathItem") (JDict p) o -> exists n, normalized_ref o = Ok n)).
Definition any_path (k : string) (ps : list (doc * doc)) (ops : list request) : Prop := True.
Definition good_path (k : string) (ps : list (doc * doc)) (ops : list request) : Prop := startswith "x-" k = false /\ expressible ps ops.
(** the global objects can be expressed, too *)
Definition expressible_globals (d : doc) : Prop :=
  (forall n q, lookup n (entries_of (val d "parameters")) = Some (JDict q) -> format_ok q) /\
  (forall n q, lookup n (entries_of (val d "responses")) = Some (JDict q) -> headers_ok q) /\
  (forall n s, lookup n (entries_of (val d "securityDefinitions")) = Some (JDict s) -> val s "type" = JStr "oauth2" -> val s "flow" <> JNull /\ val s "flow" <> JStr "").

(** ** what the OpenAPI 3.0 objects demand *)
(** a flow under a name of OpenAPI 3.0 ("implicit" and "password" are names in both versions) needs scopes *)
Definition flow_loads (s : doc) : Prop :=
  val s "type" = JStr "oauth2" -> forall f, val s "flow" = JStr f -> In f ["implicit"; "password"; "clientCredentials"; "authorizationCode"] -> exists kv l, val s "scopes" = JDict (kv :: l).
