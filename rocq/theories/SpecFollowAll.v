(** * Specification vocabulary: the meaning of the references of a Swagger 2.0 document that uses schemas of other
    documents.

    Everything here is a condition on the JSON document and what can be fetched. *)
From Coq Require Import String List Bool.
From Verif Require Import PyStr PyVal Urls Obj Classes_v2_0 SpecJson SpecSchema SpecConv SpecBody SpecOp SpecDoc SpecGiven SpecMigrate SpecWhole SpecLocal SpecFollow SpecClosed SpecClosed30 SpecLibrary.
Import ListNotations.
Open Scope string_scope.

Section Documents.
  (** the document [d] at [url] *)
  Variables (fetch : string -> res json) (url : string) (d : doc).
  (** following the references from the schema [s] in the document at [u] ends at [e], which is no reference: each
      reference is to a definition of [d], or inside one, or to something of another document that can be fetched *)
  Inductive ends_at : string -> json -> doc -> Prop :=
  | ea_here u s : lookup "$ref" s = None -> ends_at u (JDict s) s
  | ea_own u s ref n s0 ts r e : lookup "$ref" s = Some (JStr ref) -> normalize_jr (Some ref) (Some u) = Ok (Some (place url ("definitions" :: n :: ts))) ->
      lookup n (entries_of (val d "definitions")) = Some s0 -> subschema s0 ts r -> ends_at url r e -> ends_at u (JDict s) e
  | ea_other u s ref u' ts r e : lookup "$ref" s = Some (JStr ref) -> normalize_jr (Some ref) (Some u) = Ok (Some (place u' ts)) -> u' <> url -> clean u' ->
      fetch (place u' ts) = Ok r -> ends_at u' r e -> ends_at u (JDict s) e.
  (** a well-formed parameter: kept, form, or body with a schema that is not a file *)
  Definition usable_with (q : doc) : Prop :=
    (param_doc q /\ is_merged q = false) \/ form_param q \/ (body_param q /\ exists e, ends_at url (val q "schema") e /\ is_text "file" (val e "type") = false).
  Definition params_with (j : json) (ps : list (doc * doc)) : Prop :=
    list_at j ps /\ Forall (fun pq => meant "parameters" d (fst pq) (snd pq) /\ usable_with (snd pq)) ps.
  Definition operation_with (od : doc) (op : request) : Prop :=
    params_with (val od "parameters") (fst op) /\ responses_in d (val od "responses") (snd op) /\ object_or_null (val od "externalDocs").
  Definition path_with (p : doc) (ps : list (doc * doc)) (ops : list request) : Prop :=
    params_with (val p "parameters") ps /\
    Forall2 (fun m op => (val p m = JNull /\ op = ([], [])) \/ exists od, val p m = JDict od /\ operation_with od op) methods ops.
  (** a well-formed document, all path items of which can be expressed in OpenAPI 3.0 *)
  Definition well_formed_with : Prop :=
    document d /\ text_or_null (val d "host") /\ text_or_null (val d "basePath") /\
    (forall n v, lookup n (entries_of (val d "definitions")) = Some v -> schema_doc v) /\
    (forall n v, lookup n (entries_of (val d "parameters")) = Some v -> exists q, v = JDict q /\ lookup "$ref" q = None /\ usable_with q) /\
    (forall n v, lookup n (entries_of (val d "responses")) = Some v -> exists q, v = JDict q /\ lookup "$ref" q = None /\ response_doc q) /\
    (forall n v, lookup n (entries_of (val d "securityDefinitions")) = Some v -> exists s, v = JDict s /\ text_or_null (val s "flow")) /\
    (forall k v, lookup k (entries_of (val d "paths")) = Some v -> exists p ps ops, v = JDict p /\ lookup "$ref" p = None /\ path_with p ps ops /\ good_path k ps ops).
End Documents.

(** ** path items of other documents, in which parameters, responses and the schemas of bodies are written out *)
(** [path_in []], [usable_in []]: relative to the empty document, where no reference has a meaning, so there is none *)
(** a path item that OpenAPI 3.0 can express; none of its own parameters goes into the request body *)
Definition written_item (s : doc) : Prop := exists ps ops, path_in [] s ps ops /\ expressible ps ops /\ no_merged ps = true.
(** The document [d] at [url] uses schemas and path items of other documents, which are well-formed: the
    [places] referred to are in [d], and are not path items, or at the places [used] of other documents. *)
Record written_library (fetch : string -> res json) (url : string) (d : doc) (places : list (string * builder)) (used : list (string * list string)) : Prop := {
  wl_places : forall n b, In (n, b) places -> exists u ts, clean u /\ n = place u ts /\
    ((u = url /\ target d ts /\ b <> BCls "PathItem") \/ (u <> url /\ In (u, ts) used /\ (b = BCls "Schema" \/ b = BCls "PathItem")));
  wl_used : forall u ts, In (u, ts) used -> u <> url /\ forall b s X, clean u -> In (place u ts, b) places -> fetch (place u ts) = Ok (JDict s) -> construct v20_table (JDict s) b (Some (place u ts)) [] = Ok X ->
    only_references X (JDict s) /\ (b = BCls "Schema" -> schema_doc (JDict s)) /\ (b = BCls "PathItem" -> written_item s);
  (** each place is used as one kind of object *)
  wl_one : forall u ts b1 b2, In (u, ts) used -> clean u -> In (place u ts, b1) places -> In (place u ts, b2) places -> b1 = b2;
  wl_apart : forall u ts1 ts2, In (u, ts1) used -> In (u, ts2) used -> startswith (pointer ts1) (pointer ts2) = true -> ts1 = ts2 }.

(** ** documents that use both schemas and path items of other documents *)
Section Items.
  (** the document [d] at [url]; the places referred to and the kinds of objects they are used as *)
  Variables (fetch : string -> res json) (url : string) (d : doc) (places : list (string * builder)).
  (** as [ends_at]; the places of other documents that are passed are used as schemas *)
  Inductive item_ends_at : string -> json -> doc -> Prop :=
  | ia_here u s : lookup "$ref" s = None -> item_ends_at u (JDict s) s
  | ia_own u s ref n s0 ts r e : lookup "$ref" s = Some (JStr ref) -> normalize_jr (Some ref) (Some u) = Ok (Some (place url ("definitions" :: n :: ts))) ->
      lookup n (entries_of (val d "definitions")) = Some s0 -> subschema s0 ts r -> item_ends_at url r e -> item_ends_at u (JDict s) e
  | ia_other u s ref u' ts r e : lookup "$ref" s = Some (JStr ref) -> normalize_jr (Some ref) (Some u) = Ok (Some (place u' ts)) -> u' <> url -> clean u' ->
      In (place u' ts, BCls "Schema") places -> fetch (place u' ts) = Ok r -> item_ends_at u' r e -> item_ends_at u (JDict s) e.
  (** as [usable_with], [params_with], [operation_with], [path_with], [well_formed_with]; path items may be references *)
  Definition item_usable (q : doc) : Prop :=
    (param_doc q /\ is_merged q = false) \/ form_param q \/ (body_param q /\ exists e, item_ends_at url (val q "schema") e /\ is_text "file" (val e "type") = false).
  Definition item_params (j : json) (ps : list (doc * doc)) : Prop :=
    list_at j ps /\ Forall (fun pq => meant "parameters" d (fst pq) (snd pq) /\ item_usable (snd pq)) ps.
  Definition item_operation (od : doc) (op : request) : Prop :=
    item_params (val od "parameters") (fst op) /\ responses_in d (val od "responses") (snd op) /\ object_or_null (val od "externalDocs").
  Definition item_path (p : doc) (ps : list (doc * doc)) (ops : list request) : Prop :=
    item_params (val p "parameters") ps /\
    Forall2 (fun m op => (val p m = JNull /\ op = ([], [])) \/ exists od, val p m = JDict od /\ item_operation od op) methods ops.
  Definition well_formed_items : Prop :=
    document d /\ text_or_null (val d "host") /\ text_or_null (val d "basePath") /\
    (forall n v, lookup n (entries_of (val d "definitions")) = Some v -> schema_doc v) /\
    (forall n v, lookup n (entries_of (val d "parameters")) = Some v -> exists q, v = JDict q /\ lookup "$ref" q = None /\ item_usable q) /\
    (forall n v, lookup n (entries_of (val d "responses")) = Some v -> exists q, v = JDict q /\ lookup "$ref" q = None /\ response_doc q) /\
    (forall n v, lookup n (entries_of (val d "securityDefinitions")) = Some v -> exists s, v = JDict s /\ text_or_null (val s "flow")) /\
    (forall k v, lookup k (entries_of (val d "paths")) = Some v -> exists p ps ops, v = JDict p /\ item_path p ps ops /\ good_path k ps ops).
End Items.
