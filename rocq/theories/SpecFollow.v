(** * Specification vocabulary: Swagger 2.0 documents, what is written in them and what their references mean.

    Everything here is a condition on the JSON document alone. *)
From Coq Require Import String List Bool.
From Verif Require Import PyStr PyVal Obj Classes_v2_0 SpecJson SpecSchema SpecConv SpecBody SpecOp SpecDoc SpecGiven SpecMigrate SpecWhole.
Import ListNotations.
Open Scope string_scope.

(** [typed T P b j]: the value [j] has the JSON type which the classes of the table [T] declare for the slot [b], and so
    have all values inside it; [P] holds of every object.  (null is absent) *)
Inductive typed (T : ctable) (P : string -> doc -> Prop) : builder -> json -> Prop :=
| ty_str s : typed T P BStr (JStr s)
| ty_list b l : (forall x, In x l -> typed T P b x) -> typed T P (BListOf b) (JList l)
| ty_map b d : (forall k x, In (k, x) d -> typed T P b x) -> typed T P (BMapOf b) (JDict d)
| ty_object c cd d : lookup c T = Some cd -> P c d ->
    (forall ch v, In ch (c_children cd) -> lookup (ch_name ch) d = Some v -> v <> JNull -> typed T P (ch_builder ch) v) ->
    (forall ch, In ch (c_children cd) -> ch_required ch = true -> lookup (ch_name ch) d <> None) -> typed T P (BCls c) (JDict d)
| ty_ref r b d v : lookup "$ref" d = Some v -> typed T P (BCls r) (JDict d) -> typed T P (BRefElse r b) (JDict d)
| ty_noref r b d : lookup "$ref" d = None -> typed T P b (JDict d) -> typed T P (BRefElse r b) (JDict d)
| ty_bool b v : typed T P (BBoolElse b) (JBool v)
| ty_nobool b j : (forall v, j <> JBool v) -> typed T P b j -> typed T P (BBoolElse b) j.
(** a Swagger document; path items have no "$ref" *)
Definition swagger_doc (d : doc) : Prop := typed v20_table (fun c x => c = "PathItem" -> lookup "$ref" x = None) (BCls "Swagger") (JDict d).

(** following the references from the schema [s] ends at [e], which is no reference *)
Inductive schema_ends (d : doc) : json -> doc -> Prop :=
| se_here s : lookup "$ref" s = None -> schema_ends d (JDict s) s
| se_ref s n s0 ts r e : lookup "$ref" s = Some (JStr (pointer ("definitions" :: n :: ts))) ->
    lookup n (entries_of (val d "definitions")) = Some s0 -> subschema s0 ts r -> schema_ends d r e -> schema_ends d (JDict s) e.
(** the schema [s] is written out or refers to a definition or a subschema of one *)
Definition definition_ref (d s : doc) : Prop :=
  lookup "$ref" s = None \/ exists n s0 ts r, lookup "$ref" s = Some (JStr (pointer ("definitions" :: n :: ts))) /\ lookup n (entries_of (val d "definitions")) = Some s0 /\ subschema s0 ts r.
(** the parameter (response) [p] of the document is [q]: either it is written there, or [p] is a reference to the
    global one *)
Definition meant (section : string) (d p q : doc) : Prop :=
  (lookup "$ref" p = None /\ q = p) \/
  exists n, n <> "" /\ lookup "$ref" p = Some (JStr (pointer [section; n])) /\ lookup n (entries_of (val d section)) = Some (JDict q).
(** a well-formed parameter: kept, form, or body with a schema that is not a file *)
Definition usable_in (d q : doc) : Prop :=
  (param_doc q /\ is_merged q = false) \/ form_param q \/ (body_param q /\ exists e, schema_ends d (val q "schema") e /\ is_text "file" (val e "type") = false).
Definition params_in (d : doc) (j : json) (ps : list (doc * doc)) : Prop :=
  list_at j ps /\ Forall (fun pq => meant "parameters" d (fst pq) (snd pq) /\ usable_in d (snd pq)) ps.
Definition responses_in (d : doc) (j : json) (rs : list (string * (doc * doc))) : Prop :=
  map_at j rs /\ Forall (fun kr => meant "responses" d (fst (snd kr)) (snd (snd kr)) /\ response_doc (snd (snd kr))) rs.
(** an operation has the parameters and responses [op]; a path item has the parameters [ps] and the operations [ops] *)
Definition operation_in (d od : doc) (op : request) : Prop :=
  params_in d (val od "parameters") (fst op) /\ responses_in d (val od "responses") (snd op) /\ object_or_null (val od "externalDocs").
Definition path_in (d p : doc) (ps : list (doc * doc)) (ops : list request) : Prop :=
  params_in d (val p "parameters") ps /\
  Forall2 (fun m op => (val p m = JNull /\ op = ([], [])) \/ exists od, val p m = JDict od /\ operation_in d od op) methods ops.
(** a well-formed document, all path items of which can be expressed in OpenAPI 3.0 *)
Definition well_formed (d : doc) : Prop :=
  document d /\ text_or_null (val d "host") /\ text_or_null (val d "basePath") /\
  (forall n v, lookup n (entries_of (val d "definitions")) = Some v -> schema_doc v) /\
  (forall n v, lookup n (entries_of (val d "parameters")) = Some v -> exists q, v = JDict q /\ lookup "$ref" q = None /\ usable_in d q) /\
  (forall n v, lookup n (entries_of (val d "responses")) = Some v -> exists q, v = JDict q /\ lookup "$ref" q = None /\ response_doc q) /\
  (forall n v, lookup n (entries_of (val d "securityDefinitions")) = Some v -> exists s, v = JDict s /\ text_or_null (val s "flow")) /\
  (forall k v, lookup k (entries_of (val d "paths")) = Some v -> exists p ps ops, v = JDict p /\ path_in d p ps ops /\ good_path k ps ops).
